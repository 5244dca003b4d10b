(* What any history of set_precursors and set_target calls leaves in the graph (C35). *)
From Verif Require Import Prelude NumQ ListFacts UtilsProofs EnumModel EnumProofs EnumReactProofs NetModel NetSpec NetProofs.
Open Scope nat_scope.
Notation edge := (nat * nat * payload)%type.
Notation dedge := ((ntype * list nat) * (ntype * list nat) * payload)%type.

Lemma flat_map_app_perm' {A B} (f g : A -> list B) l : Permutation (flat_map (fun x => f x ++ g x) l) (flat_map f l ++ flat_map g l).
Proof.
  induction l as [|x l IH]; [constructor|]. cbn [flat_map]. rewrite <- app_assoc. rewrite <- app_assoc. apply Permutation_app_head.
  eapply perm_trans; [apply Permutation_app_head; exact IH|]. rewrite !app_assoc. apply Permutation_app_tail, Permutation_app_comm.
Qed.
Lemma filter_perm {A} (f : A -> bool) l l' : Permutation l l' -> Permutation (filter f l) (filter f l').
Proof.
  induction 1 as [|x l l' P IH|x y l|l1 l2 l3 P1 IH1 P2 IH2]; simpl; [constructor| | |eapply perm_trans; eassumption].
  - destruct (f x); [constructor|]; exact IH.
  - destruct (f x), (f y); try constructor; apply Permutation_refl.
Qed.
Lemma filter_keep {A} (f : A -> bool) l : (forall x, In x l -> f x = true) -> filter f l = l.
Proof. induction l as [|x l IH]; intros H; simpl; [reflexivity|]. rewrite (H x (or_introl eq_refl)), IH; [reflexivity|intros y Hy; apply H; right; exact Hy]. Qed.
Lemma flat_map_flat_map {A B C} (f : A -> list B) (g : B -> list C) l : flat_map g (flat_map f l) = flat_map (fun x => flat_map g (f x)) l.
Proof. induction l as [|x l IH]; [reflexivity|]. cbn [flat_map]. rewrite flat_map_app, IH. reflexivity. Qed.
Lemma flat_map_enum {A B} (f : nat * A -> list B) (h : A -> list B) l : (forall i x, nth_error l i = Some x -> f (i, x) = h x) -> flat_map f (enumerate l) = flat_map h l.
Proof.
  unfold enumerate. intros H. assert (K : forall n l, (forall i x, nth_error l i = Some x -> f (n + i, x) = h x) -> flat_map f (combine (seq n (length l)) l) = flat_map h l).
  { clear. intros n l. revert n. induction l as [|x l IH]; intros n H; [reflexivity|]. cbn [length seq combine flat_map]. rewrite IH.
    - f_equal. specialize (H 0 x eq_refl). rewrite Nat.add_0_r in H. exact H.
    - intros i y Hi. replace (S n + i) with (n + S i) by lia. apply H. exact Hi. }
  apply (K 0). exact H.
Qed.
Lemma enumerate_app {A} (a b : list A) : enumerate (a ++ b) = enumerate a ++ combine (seq (length a) (length b)) b.
Proof.
  unfold enumerate. rewrite app_length, seq_app. assert (K : forall (x y : list nat) (a b : list A), length x = length a -> combine (x ++ y) (a ++ b) = combine x a ++ combine y b).
  { induction x as [|i x IH]; intros y [|u a'] b' H; try discriminate; [reflexivity|]. simpl. f_equal. apply IH. simpl in H. lia. }
  rewrite K by apply seq_length. reflexivity.
Qed.
Lemma nodes_full (g : net) l : g_slots g = map Some l -> nodes g = enumerate l.
Proof.
  intros H. unfold nodes, enumerate. rewrite H. generalize 0. induction l as [|x l IH] in |-*; intros n; [reflexivity|]. cbn [map nodes_from length seq combine]. rewrite IH. reflexivity.
Qed.
Lemma set_nth_app {A} (a b : list A) x y : set_nth (length a) y (a ++ x :: b) = a ++ y :: b.
Proof. induction a as [|z a IH]; [reflexivity|]. simpl. rewrite IH. reflexivity. Qed.

Section History.
Variable base : list node.
Hypothesis Hbase : forall n, In n base -> fst n = Reactants \/ fst n = Products.
Let n0 := length base.

(* edges added for a precursor node, with indices and with the data of the nodes *)
Definition iP (ps : list nat) (pn : nat) : list edge :=
  flat_map (fun x => match fst (snd x) with Reactants => if subset (snd (snd x)) ps then [(pn, fst x, PrecursorEdge)] else [] | _ => [] end) (enumerate base).
Definition iL (ps : list nat) : list edge :=
  flat_map (fun x => match fst (snd x) with
    | Products => flat_map (fun y => if ntype_eqb (fst (snd y)) Reactants && negb (subset (snd (snd y)) ps) && subset (snd (snd y)) (ps ++ snd (snd x))
                                     then [(fst x, fst y, Loopback)] else []) (enumerate base)
    | _ => [] end) (enumerate base).
Definition iT (t tn : nat) : list edge :=
  flat_map (fun x => if ntype_eqb (fst (snd x)) Products && inb t (snd (snd x)) then [(fst x, tn, TargetEdge)] else []) (enumerate base).
Definition dP (ps : list nat) : list dedge :=
  flat_map (fun x => match fst x with Reactants => if subset (snd x) ps then [((Precursors, ps), x, PrecursorEdge)] else [] | _ => [] end) base.
Definition dL (ps : list nat) : list dedge :=
  flat_map (fun x => match fst x with
    | Products => flat_map (fun y => if ntype_eqb (fst y) Reactants && negb (subset (snd y) ps) && subset (snd y) (ps ++ snd x)
                                     then [(x, y, Loopback)] else []) base
    | _ => [] end) base.
Definition dT (t : nat) : list dedge :=
  flat_map (fun x => if ntype_eqb (fst x) Products && inb t (snd x) then [(x, (Target, [t]), TargetEdge)] else []) base.

Definition D (slots : list (option node)) (e : edge) : list dedge :=
  match nth_error slots (fst (fst e)), nth_error slots (snd (fst e)) with Some (Some a), Some (Some b) => [(a, b, snd e)] | _, _ => [] end.

Lemma slots_base ext i x : nth_error base i = Some x -> nth_error (map Some (base ++ ext)) i = Some (Some x).
Proof. intros H. apply nth_map_some. apply nth_app_some. exact H. Qed.

Lemma D_iP ext ps pn : nth_error (base ++ ext) pn = Some (Precursors, ps) -> flat_map (D (map Some (base ++ ext))) (iP ps pn) = dP ps.
Proof.
  intros Hp. unfold iP, dP. rewrite flat_map_flat_map. apply flat_map_enum. intros i x Hi. cbn [fst snd]. destruct (fst x); try reflexivity.
  destruct (subset (snd x) ps); [|reflexivity]. cbn [flat_map app]. unfold D. cbn [fst snd]. rewrite (proj2 (nth_map_some _ _ _) Hp), (slots_base ext i x Hi). reflexivity.
Qed.
Lemma D_iT ext t tn : nth_error (base ++ ext) tn = Some (Target, [t]) -> flat_map (D (map Some (base ++ ext))) (iT t tn) = dT t.
Proof.
  intros Hp. unfold iT, dT. rewrite flat_map_flat_map. apply flat_map_enum. intros i x Hi. cbn [fst snd].
  destruct (ntype_eqb (fst x) Products && inb t (snd x)); [|reflexivity]. cbn [flat_map app]. unfold D. cbn [fst snd].
  rewrite (proj2 (nth_map_some _ _ _) Hp), (slots_base ext i x Hi). reflexivity.
Qed.
Lemma D_iL ext ps : flat_map (D (map Some (base ++ ext))) (iL ps) = dL ps.
Proof.
  unfold iL, dL. rewrite flat_map_flat_map. apply flat_map_enum. intros i x Hi. cbn [fst snd]. destruct (fst x); try reflexivity.
  rewrite flat_map_flat_map. apply flat_map_enum. intros j y Hj. cbn [fst snd].
  destruct (ntype_eqb (fst y) Reactants && negb (subset (snd y) ps) && subset (snd y) (ps ++ snd x)); [|reflexivity].
  cbn [flat_map app]. unfold D. cbn [fst snd]. rewrite (slots_base ext i x Hi), (slots_base ext j y Hj). reflexivity.
Qed.

Definition special (n : node) : Prop := fst n = Precursors \/ fst n = Target.
Lemma precursor_edges_perm (g : net) ext ps pn : g_slots g = map Some (base ++ ext) -> Forall special ext ->
  Permutation (precursor_edges ps pn g) (iP ps pn ++ iL ps).
Proof.
  intros Hs Hext. unfold precursor_edges. rewrite (nodes_full g (base ++ ext) Hs), enumerate_app, flat_map_app.
  set (F := fun x : nat * node => match fst (snd x) with Reactants => if subset (snd (snd x)) ps then [(pn, fst x, PrecursorEdge)] else []
      | Products => flat_map (fun y => if ntype_eqb (fst (snd y)) Reactants && negb (subset (snd (snd y)) ps) && subset (snd (snd y)) (ps ++ snd (snd x)) then [(fst x, fst y, Loopback)] else [])
           (enumerate base ++ combine (seq (length base) (length ext)) ext) | _ => [] end).
  assert (Hz : forall (h : nat * node -> list edge), (forall i n, special n -> h (i, n) = []) -> flat_map h (combine (seq (length base) (length ext)) ext) = []).
  { intros h Hh. rewrite Forall_forall in Hext. rewrite flat_map_concat_map, (map_ext_in h (fun _ => []) _), <- flat_map_concat_map.
    - clear. induction (combine (seq (length base) (length ext)) ext); [reflexivity|]. exact IHl.
    - intros [i n] Hin. apply Hh, Hext. apply in_combine_r in Hin. exact Hin. }
  rewrite (Hz F), app_nil_r.
  - eapply perm_trans; [|apply flat_map_app_perm']. erewrite flat_map_ext; [apply Permutation_refl|]. intros [i [ty x]]. unfold F. cbn [fst snd].
    destruct ty; try reflexivity; [rewrite app_nil_r; reflexivity|]. rewrite flat_map_app. cbn [app]. rewrite (Hz (fun y => if _ && _ && _ then _ else _)); [apply app_nil_r|].
    intros j n [Hn|Hn]; cbn [fst snd]; rewrite Hn; reflexivity.
  - intros i n [Hn|Hn]; unfold F; cbn [fst snd]; rewrite Hn; reflexivity.
Qed.
Lemma target_edges_eq (g : net) ext t tn : g_slots g = map Some (base ++ ext) -> Forall special ext -> target_edges t tn g = iT t tn.
Proof.
  intros Hs Hext. unfold target_edges, iT. rewrite (nodes_full g (base ++ ext) Hs), enumerate_app, flat_map_app.
  match goal with |- _ ++ ?r = _ => assert (Hz : r = []) end; [|rewrite Hz; apply app_nil_r].
  rewrite Forall_forall in Hext. apply (incl_l_nil). intros e He. apply in_flat_map in He as ([i n] & Hin & He). apply in_combine_r, Hext in Hin. cbn [fst snd] in He.
  destruct Hin as [Hn|Hn]; rewrite Hn in He; exact He.
Qed.

(* edges of the added node n with index k *)
Definition edges_of (k : nat) (n : node) : list edge :=
  match n with (Precursors, ps) => iP ps k | (Target, [t]) => iT t k | _ => [] end.
Definition dedges_of (n : node) : list dedge :=
  match n with (Precursors, ps) => dP ps | (Target, [t]) => dT t | _ => [] end.
Fixpoint extE (k : nat) (ext : list node) : list edge :=
  match ext with [] => [] | n :: ext' => edges_of k n ++ extE (S k) ext' end.

Lemma edges_of_ends k n i j p : In (i, j, p) (edges_of k n) -> (i = k /\ j < n0) \/ (i < n0 /\ j = k).
Proof.
  assert (Hb : forall a x, In (a, x) (enumerate base) -> a < n0) by (intros a x H; apply in_enumerate in H; apply nth_error_Some; congruence).
  destruct n as [ty x]. cbn [edges_of]. destruct ty; try (intros []).
  - intros H. apply in_flat_map in H as ([a [ty' y]] & Ha & H). cbn [fst snd] in H. destruct ty'; try destruct H. destruct (subset y x); [|destruct H].
    destruct H as [H|[]]. injection H as <- <- <-. left. split; [reflexivity|]. exact (Hb _ _ Ha).
  - destruct x as [|t [|]]; try (intros []). intros H. apply in_flat_map in H as ([a y] & Ha & H). cbn [fst snd] in H.
    destruct (ntype_eqb (fst y) Products && inb t (snd y)); [|destruct H]. destruct H as [H|[]]. injection H as <- <- <-. right. split; [|reflexivity]. exact (Hb _ _ Ha).
Qed.
Lemma extE_in ext : forall k e, In e (extE k ext) -> exists m n, k <= m < k + length ext /\ In e (edges_of m n).
Proof.
  induction ext as [|n ext IH]; intros k e H; [destruct H|]. cbn [extE] in H. apply in_app_iff in H as [H|H]; [exists k, n; split; [simpl; lia|exact H]|].
  destruct (IH _ _ H) as (m & n' & Hm & Hi). exists m, n'. split; [simpl; lia|exact Hi].
Qed.
Lemma extE_app ext1 ext2 : forall k, extE k (ext1 ++ ext2) = extE k ext1 ++ extE (k + length ext1) ext2.
Proof. induction ext1 as [|n l IH]; intros k; simpl; [rewrite Nat.add_0_r; reflexivity|]. rewrite IH, <- app_assoc. replace (S k + length l) with (k + S (length l)) by lia. reflexivity. Qed.

Definition avoids (i : nat) (e : edge) : bool := negb (Nat.eqb (fst (fst e)) i) && negb (Nat.eqb (snd (fst e)) i).
Lemma avoids_other m n i e : n0 <= m -> n0 <= i -> m <> i -> In e (edges_of m n) -> avoids i e = true.
Proof.
  intros Hm Hi Hne H. destruct e as [[a b] p]. apply edges_of_ends in H as [[-> H]|[H ->]]; unfold avoids; cbn [fst snd]; apply andb_true_iff; rewrite !negb_true_iff, !Nat.eqb_neq; lia.
Qed.
Lemma avoids_self m n e : In e (edges_of m n) -> avoids m e = false.
Proof.
  intros H. destruct e as [[a b] p]. apply edges_of_ends in H as [[-> H]|[H ->]]; unfold avoids; cbn [fst snd]; rewrite Nat.eqb_refl; [reflexivity|apply andb_false_r].
Qed.
Definition inside (e : edge) : Prop := fst (fst e) < n0 /\ snd (fst e) < n0.
Lemma avoids_inside i e : n0 <= i -> inside e -> avoids i e = true.
Proof. intros Hi [H1 H2]. unfold avoids. apply andb_true_iff. rewrite !negb_true_iff, !Nat.eqb_neq. lia. Qed.
Lemma iL_inside ps e : In e (iL ps) -> inside e.
Proof.
  assert (Hb : forall a x, In (a, x) (enumerate base) -> a < n0) by (intros a x H; apply in_enumerate in H; apply nth_error_Some; congruence).
  intros H. apply in_flat_map in H as ([a [ty x]] & Ha & H). cbn [fst snd] in H. destruct ty; try destruct H. apply in_flat_map in H as ([b y] & Hy & H). cbn [fst snd] in H.
  destruct (ntype_eqb (fst y) Reactants && negb (subset (snd y) ps) && subset (snd y) (ps ++ x)); [|destruct H]. destruct H as [<-|[]]. split; [exact (Hb _ _ Ha)|exact (Hb _ _ Hy)].
Qed.

Lemma filter_ext i ins l1 old l2 : Forall inside ins -> i = n0 + length l1 ->
  filter (avoids i) (ins ++ extE n0 (l1 ++ old :: l2)) = ins ++ extE n0 l1 ++ extE (S i) l2.
Proof.
  intros Hin ->. rewrite extE_app. cbn [extE]. rewrite !filter_app. f_equal; [|f_equal].
  - apply filter_keep. rewrite Forall_forall in Hin. intros e He. apply avoids_inside; [lia|apply Hin; exact He].
  - apply filter_keep. intros e He. apply extE_in in He as (m & n & Hm & He). apply (avoids_other m n); try lia. exact He.
  - rewrite filter_none by (intros e He; apply (avoids_self _ _ _ He)). cbn [app].
    apply filter_keep. intros e He. apply extE_in in He as (m & n & Hm & He). apply (avoids_other m n); try lia. exact He.
Qed.

Lemma D_edges_of ext k n : nth_error (base ++ ext) k = Some n -> flat_map (D (map Some (base ++ ext))) (edges_of k n) = dedges_of n.
Proof.
  intros H. destruct n as [ty x]. cbn [edges_of dedges_of]. destruct ty; try reflexivity; [apply D_iP; exact H|]. destruct x as [|t [|]]; try reflexivity. apply D_iT. exact H.
Qed.
Lemma D_extE ext : forall l1 l2, ext = l1 ++ l2 -> flat_map (D (map Some (base ++ ext))) (extE (n0 + length l1) l2) = flat_map dedges_of l2.
Proof.
  intros l1 l2. revert l1. induction l2 as [|n l2 IH]; intros l1 He; [reflexivity|]. cbn [extE flat_map]. rewrite flat_map_app. f_equal.
  - apply D_edges_of. rewrite He, nth_error_app2 by (fold n0; lia). fold n0. replace (n0 + length l1 - n0) with (length l1) by lia. rewrite nth_error_app2, Nat.sub_diag by lia. reflexivity.
  - replace (S (n0 + length l1)) with (n0 + length (l1 ++ [n])) by (rewrite app_length; simpl; lia). apply IH. rewrite He, <- app_assoc. reflexivity.
Qed.
Lemma D_inside ext ins : Forall inside ins -> flat_map (D (map Some (base ++ ext))) ins = flat_map (D (map Some base)) ins.
Proof.
  intros H. rewrite Forall_forall in H. apply flat_map_ext_in. intros e He. destruct (H e He) as [H1 H2]. unfold D. rewrite map_app, !nth_error_app1 by (rewrite map_length; fold n0; assumption). reflexivity.
Qed.

(* --- the invariant --- *)
Variable entries : list nat.
Variable rxns : list nrxn.
Variable E0 : list edge.
Hypothesis HE0 : Forall inside E0.
Hypothesis Hne : base <> [].
Hypothesis Hnd : NoDup base.

Definition pnode (P : option (list nat)) : list node := match P with Some ps => [(Precursors, ps)] | None => [] end.
Definition tnode (T : option nat) : list node := match T with Some t => [(Target, [t])] | None => [] end.
Definition inv (w : network) (P : option (list nat)) (T : option nat) (hist : list (list nat)) : Prop :=
  exists b g ext, w = {| w_entries := entries; w_rxns := rxns; w_precursors := P; w_listed := b; w_target := T; w_graph := Some g |}
  /\ g_slots g = map Some (base ++ ext) /\ g_free g = [] /\ Permutation ext (pnode P ++ tnode T)
  /\ Permutation (g_edges g) ((E0 ++ flat_map iL hist) ++ extE n0 ext).

Lemma ext_special ext P T : Permutation ext (pnode P ++ tnode T) -> Forall special ext.
Proof.
  intros H. apply (Permutation_Forall (Permutation_sym H)). apply Forall_forall. intros n Hn. apply in_app_iff in Hn as [Hn|Hn]; [destruct P; [destruct Hn as [<-|[]]; left; reflexivity|destruct Hn]|destruct T; [destruct Hn as [<-|[]]; right; reflexivity|destruct Hn]].
Qed.
Lemma get_graph_inv w g : w_graph w = Some g -> forall ext, g_slots g = map Some (base ++ ext) -> get_graph w = Ok g.
Proof.
  intros Hg ext Hs. unfold get_graph. rewrite Hg, (nodes_full g _ Hs).
  assert (Hl : base ++ ext <> []) by (intros Hx; apply app_eq_nil in Hx as [Hx _]; contradiction). destruct (base ++ ext) as [|n b]; [contradiction|]. reflexivity.
Qed.
Lemma hist_inside hist : Forall inside (E0 ++ flat_map iL hist).
Proof. apply Forall_app. split; [exact HE0|]. apply Forall_forall. intros e He. apply in_flat_map in He as (ps & _ & He). exact (iL_inside ps e He). Qed.

Lemma find_first ty l1 n l2 : fst n = ty -> special n -> Forall (fun m => fst m <> ty) l1 -> forall g : net, g_slots g = map Some (base ++ l1 ++ n :: l2) ->
  first_of_type ty g = Some (n0 + length l1).
Proof.
  intros Hn Hsp Hl g Hs. unfold first_of_type. rewrite (nodes_full g _ Hs). unfold enumerate.
  replace (base ++ l1 ++ n :: l2) with ((base ++ l1) ++ n :: l2) by (rewrite <- app_assoc; reflexivity).
  assert (Hno : Forall (fun m => fst m <> ty) (base ++ l1)).
  { apply Forall_app. split; [|exact Hl]. apply Forall_forall. intros m Hm. destruct (Hbase m Hm) as [E|E]; rewrite E, <- Hn; destruct Hsp as [E'|E']; rewrite E'; discriminate. }
  replace (n0 + length l1) with (0 + length (base ++ l1)) by (rewrite app_length; reflexivity). generalize 0. clear -Hno Hn. induction (base ++ l1) as [|m l IH] in Hno |- *; intros k.
  - cbn [length seq combine find app]. assert (E : ntype_eqb (fst (snd (k, n))) ty = true) by (apply ntype_eqb_iff; exact Hn). rewrite E. cbn [option_map fst]. f_equal. simpl. lia.
  - inversion Hno; subst. cbn [length app seq combine find snd]. destruct (ntype_eqb (fst m) (fst n)) eqn:E; [apply ntype_eqb_iff in E; contradiction|].
    rewrite IH by assumption. f_equal. simpl. lia.
Qed.

(* replacing or adding a special node *)
Lemma replace_node (g : net) ins l1 old l2 new : g_slots g = map Some (base ++ l1 ++ old :: l2) -> g_free g = [] -> Forall inside ins ->
  Permutation (g_edges g) (ins ++ extE n0 (l1 ++ old :: l2)) ->
  let g2 := fst (add_node (remove_node g (n0 + length l1)) new) in
  snd (add_node (remove_node g (n0 + length l1)) new) = n0 + length l1 /\ g_slots g2 = map Some (base ++ l1 ++ new :: l2) /\ g_free g2 = []
  /\ Permutation (g_edges g2) (ins ++ extE n0 l1 ++ extE (S (n0 + length l1)) l2).
Proof.
  intros Hs Hf Hi He. unfold remove_node, add_node. cbn [g_free fst snd g_slots g_edges]. split; [reflexivity|]. split; [|split; [exact Hf|]].
  - rewrite Hs. replace (base ++ l1 ++ old :: l2) with ((base ++ l1) ++ old :: l2) by (rewrite <- app_assoc; reflexivity). rewrite map_app. cbn [map].
    replace (n0 + length l1) with (length (map (@Some node) (base ++ l1))) by (rewrite map_length, app_length; reflexivity). rewrite !set_nth_app, map_app, <- app_assoc. rewrite !map_app. reflexivity.
  - rewrite <- (filter_ext (n0 + length l1) ins l1 old l2 Hi eq_refl). apply filter_perm. exact He.
Qed.

Lemma pick_special (ext : list node) x rest : Permutation ext (x :: rest) -> (forall m, In m rest -> fst m <> fst x) ->
  exists l1 l2, ext = l1 ++ x :: l2 /\ Permutation (l1 ++ l2) rest /\ Forall (fun m => fst m <> fst x) l1.
Proof.
  intros H Hr. assert (Hin : In x ext) by (apply (Permutation_in _ (Permutation_sym H)); left; reflexivity). apply in_split in Hin as (l1 & l2 & ->).
  exists l1, l2. split; [reflexivity|]. assert (P : Permutation (l1 ++ l2) rest) by (apply (Permutation_cons_inv (a := x)); eapply perm_trans; [apply Permutation_middle|exact H]).
  split; [exact P|]. apply Forall_forall. intros m Hm. apply Hr. apply (Permutation_in _ P), in_app_iff. left. exact Hm.
Qed.
Lemma extE_mid l1 n l2 : Permutation (extE n0 (l1 ++ n :: l2)) (edges_of (n0 + length l1) n ++ extE n0 l1 ++ extE (S (n0 + length l1)) l2).
Proof. rewrite extE_app. cbn [extE]. rewrite !app_assoc. apply Permutation_app_tail, Permutation_app_comm. Qed.

Lemma step_precursors w P T hist ps : inv w P T hist -> (forall q, P = Some q -> q <> []) -> ps <> [] -> is_subset ps entries ->
  exists w', run_op w (SetPrecursors ps) = Ok w' /\ inv w' (Some (mkset ps)) T (if negb (w_listed w) && match P with Some old => list_eqb (mkset ps) old | None => false end then hist else hist ++ [mkset ps]) /\ w_listed w' = false.
Proof.
  intros (b & g & ext & -> & Hs & Hf & Hp & He) HP Hps Hsub. cbn [run_op]. unfold set_precursors.
  match goal with |- context [get_graph ?w] => rewrite (get_graph_inv w g eq_refl ext Hs) end. cbn [bind w_precursors w_listed].
  assert (Eq : match P with Some old => negb b && list_eqb (mkset ps) old | None => false end = negb b && match P with Some old => list_eqb (mkset ps) old | None => false end)
    by (destruct P; [reflexivity|rewrite andb_false_r; reflexivity]). rewrite Eq.
  destruct (negb b && match P with Some old => list_eqb (mkset ps) old | None => false end) eqn:Same.
  { apply andb_true_iff in Same as [Sb Same]. apply negb_true_iff in Sb as ->. destruct P as [old|]; [|discriminate]. apply list_eqb_iff in Same as <-. eexists. split; [reflexivity|].
    split; [|reflexivity]. exists false, g, ext. auto. }
  assert (Hsub' : subset (mkset ps) entries = true).
  { apply subset_iff. intros x Hx. apply Hsub. apply (proj2 (set_of_mkset ps)). exact Hx. }
  cbn [w_entries]. rewrite Hsub'. cbn [negb].
  pose proof (hist_inside hist) as Hins. set (ins := E0 ++ flat_map iL hist) in *.
  assert (Fin : forall g2 l1 l2 pn, pn = n0 + length l1 -> Permutation (l1 ++ l2) (tnode T) -> g_slots g2 = map Some (base ++ l1 ++ (Precursors, mkset ps) :: l2) -> g_free g2 = [] ->
    Permutation (g_edges g2) (ins ++ extE n0 l1 ++ extE (S pn) l2) ->
    inv {| w_entries := entries; w_rxns := rxns; w_precursors := Some (mkset ps); w_listed := false; w_target := T;
           w_graph := Some (add_edges_from g2 (precursor_edges (mkset ps) pn g2)) |} (Some (mkset ps)) T (hist ++ [mkset ps])).
  { intros g2 l1 l2 pn -> Q1 Q2 Q3 Q4. exists false, (add_edges_from g2 (precursor_edges (mkset ps) (n0 + length l1) g2)), (l1 ++ (Precursors, mkset ps) :: l2).
    assert (Qp : Permutation (l1 ++ (Precursors, mkset ps) :: l2) (pnode (Some (mkset ps)) ++ tnode T)).
    { eapply perm_trans; [apply Permutation_sym, Permutation_middle|]. cbn [pnode app]. constructor. exact Q1. }
    split; [reflexivity|]. unfold add_edges_from. cbn [g_slots g_free g_edges]. split; [exact Q2|]. split; [exact Q3|]. split; [exact Qp|].
    eapply perm_trans; [apply Permutation_app; [apply Permutation_sym, Permutation_rev|exact Q4]|].
    eapply perm_trans; [apply Permutation_app_tail; apply (precursor_edges_perm g2 _ _ _ Q2 (ext_special _ _ _ Qp))|].
    rewrite flat_map_app. cbn [flat_map]. rewrite app_nil_r, (app_assoc E0). fold ins.
    eapply perm_trans; [|apply Permutation_app_head, Permutation_sym, extE_mid]. cbn [edges_of].
    set (a := iP (mkset ps) (n0 + length l1)). set (bl := iL (mkset ps)). set (c := extE n0 l1 ++ extE (S (n0 + length l1)) l2).
    (* (a ++ b) ++ ins ++ c ~ (ins ++ b) ++ a ++ c *)
    rewrite !app_assoc. apply Permutation_app_tail. rewrite <- (app_assoc a). eapply perm_trans; [apply Permutation_app_comm|].
    apply Permutation_app_tail, Permutation_app_comm. }
  destruct P as [old|].
  - assert (Ho : truthy (Some old) = true) by (destruct old; [destruct (HP [] eq_refl eq_refl)|reflexivity]). rewrite Ho.
    cbn [pnode app] in Hp. destruct (pick_special _ _ _ Hp) as (l1 & l2 & -> & Hl & Hl1). { intros m Hm. destruct T; [destruct Hm as [<-|[]]|destruct Hm]. cbn [fst]. discriminate. }
    rewrite (find_first Precursors l1 (Precursors, old) l2 eq_refl (or_introl eq_refl) Hl1 g Hs). cbn [bind].
    destruct (replace_node g ins l1 _ l2 (Precursors, mkset ps) Hs Hf Hins He) as (R1 & R2 & R3 & R4).
    destruct (add_node (remove_node g (n0 + length l1)) (Precursors, mkset ps)) as [g2 pn]. cbn [fst snd] in R1, R2, R3, R4. subst pn. eexists. split; [reflexivity|]. split; [|reflexivity]. apply (Fin g2 l1 l2); auto.
  - cbn [truthy bind]. unfold add_node. rewrite Hf. eexists. split; [reflexivity|]. split; [|reflexivity]. apply (Fin _ ext []).
    + rewrite Hs, map_length, app_length. reflexivity.
    + rewrite app_nil_r. exact Hp.
    + cbn [g_slots]. rewrite Hs, !map_app. cbn [map]. rewrite <- app_assoc. reflexivity.
    + reflexivity.
    + cbn [g_edges extE]. rewrite app_nil_r. exact He.
Qed.

Lemma step_target w P T hist t : inv w P T hist -> In t entries -> exists w', run_op w (SetTarget t) = Ok w' /\ inv w' P (Some t) hist /\ w_listed w' = w_listed w.
Proof.
  intros (b & g & ext & -> & Hs & Hf & Hp & He) Ht. cbn [run_op]. unfold set_target.
  match goal with |- context [get_graph ?w] => rewrite (get_graph_inv w g eq_refl ext Hs) end. cbn [bind w_target].
  destruct (match T with Some old => Nat.eqb t old | None => false end) eqn:Same.
  { destruct T as [old|]; [|discriminate]. apply Nat.eqb_eq in Same as ->. eexists. split; [reflexivity|]. split; [|reflexivity]. exists b, g, ext. auto. }
  cbn [w_entries]. rewrite (proj2 (inb_iff t entries) Ht). cbn [negb].
  pose proof (hist_inside hist) as Hins. set (ins := E0 ++ flat_map iL hist) in *.
  assert (Fin : forall g2 l1 l2 tn, tn = n0 + length l1 -> Permutation (l1 ++ l2) (pnode P) -> g_slots g2 = map Some (base ++ l1 ++ (Target, [t]) :: l2) -> g_free g2 = [] ->
    Permutation (g_edges g2) (ins ++ extE n0 l1 ++ extE (S tn) l2) ->
    inv {| w_entries := entries; w_rxns := rxns; w_precursors := P; w_listed := b; w_target := Some t;
           w_graph := Some (add_edges_from g2 (target_edges t tn g2)) |} P (Some t) hist).
  { intros g2 l1 l2 tn -> Q1 Q2 Q3 Q4. exists b, (add_edges_from g2 (target_edges t (n0 + length l1) g2)), (l1 ++ (Target, [t]) :: l2).
    assert (Qp : Permutation (l1 ++ (Target, [t]) :: l2) (pnode P ++ tnode (Some t))).
    { eapply perm_trans; [apply Permutation_sym, Permutation_middle|]. eapply perm_trans; [|apply Permutation_app_comm]. cbn [tnode app]. constructor. exact Q1. }
    split; [reflexivity|]. unfold add_edges_from. cbn [g_slots g_free g_edges]. split; [exact Q2|]. split; [exact Q3|]. split; [exact Qp|].
    rewrite (target_edges_eq g2 _ t _ Q2 (ext_special _ _ _ Qp)).
    eapply perm_trans; [apply Permutation_app; [apply Permutation_sym, Permutation_rev|exact Q4]|]. fold ins.
    eapply perm_trans; [|apply Permutation_app_head, Permutation_sym, extE_mid]. cbn [edges_of].
    rewrite !app_assoc. do 2 apply Permutation_app_tail. apply Permutation_app_comm. }
  destruct T as [old|].
  - cbn [tnode] in Hp. assert (Hp' : Permutation ext ((Target, [old]) :: pnode P)) by (eapply perm_trans; [exact Hp|apply Permutation_app_comm]).
    destruct (pick_special _ _ _ Hp') as (l1 & l2 & -> & Hl & Hl1). { intros m Hm. destruct P; [destruct Hm as [<-|[]]|destruct Hm]. cbn [fst]. discriminate. }
    rewrite (find_first Target l1 (Target, [old]) l2 eq_refl (or_intror eq_refl) Hl1 g Hs). cbn [bind].
    destruct (replace_node g ins l1 _ l2 (Target, [t]) Hs Hf Hins He) as (R1 & R2 & R3 & R4).
    destruct (add_node (remove_node g (n0 + length l1)) (Target, [t])) as [g2 tn]. cbn [fst snd] in R1, R2, R3, R4. subst tn. eexists. split; [reflexivity|]. split; [|reflexivity]. apply (Fin g2 l1 l2); auto.
  - cbn [bind]. unfold add_node. rewrite Hf. eexists. split; [reflexivity|]. split; [|reflexivity]. apply (Fin _ ext []).
    + rewrite Hs, map_length, app_length. reflexivity.
    + rewrite (app_nil_r ext). cbn [tnode] in Hp. rewrite (app_nil_r (pnode P)) in Hp. exact Hp.
    + cbn [g_slots]. rewrite Hs, !map_app. cbn [map]. rewrite <- app_assoc. reflexivity.
    + reflexivity.
    + cbn [g_edges extE]. rewrite app_nil_r. exact He.
Qed.

(* --- histories --- *)
Definition last_set (ops : list net_op) : option (list nat) := match rev (precursors_of ops) with [] => None | ps :: _ => Some (mkset ps) end.
Definition last_target (ops : list net_op) : option nat := match rev (targets_of ops) with [] => None | t :: _ => Some t end.
Definition hist_ok (strict : bool) (ops : list net_op) (hist : list (list nat)) : Prop :=
  incl hist (map mkset (precursors_of ops))
  /\ match last_set ops with None => hist = [] | Some p => exists pre, Permutation hist (p :: pre) end
  /\ (strict = true -> (forall a b, In a (precursors_of ops) -> In b (precursors_of ops) -> mkset a = mkset b) -> hist = match last_set ops with None => [] | Some p => [p] end).

Lemma precursors_of_snoc ops o : precursors_of (ops ++ [o]) = precursors_of ops ++ match o with SetPrecursors ps => [ps] | _ => [] end.
Proof. unfold precursors_of. rewrite flat_map_app. cbn [flat_map]. rewrite app_nil_r. reflexivity. Qed.
Lemma targets_of_snoc ops o : targets_of (ops ++ [o]) = targets_of ops ++ match o with SetTarget t => [t] | _ => [] end.
Proof. unfold targets_of. rewrite flat_map_app. cbn [flat_map]. rewrite app_nil_r. reflexivity. Qed.
Lemma last_set_in ops p : last_set ops = Some p -> exists ps, In ps (precursors_of ops) /\ p = mkset ps.
Proof.
  unfold last_set. destruct (rev (precursors_of ops)) as [|ps l] eqn:R; [discriminate|]. intros H. injection H as <-. exists ps. split; [|reflexivity].
  apply in_rev. rewrite R. left. reflexivity.
Qed.
Lemma mkset_nonempty ps : ps <> [] -> mkset ps <> [].
Proof. destruct ps as [|x ps]; [contradiction|]. intros _ H. assert (Hx : In x (mkset (x :: ps))) by (apply (proj2 (set_of_mkset _)); left; reflexivity). rewrite H in Hx. exact Hx. Qed.
Lemma hist_step strict b ops hist ps : (strict = true -> b = false) -> hist_ok strict ops hist ->
  hist_ok strict (ops ++ [SetPrecursors ps]) (if negb b && match last_set ops with Some old => list_eqb (mkset ps) old | None => false end then hist else hist ++ [mkset ps]).
Proof.
  intros Hb (H1 & H2 & H3). unfold hist_ok. rewrite precursors_of_snoc.
  assert (L : last_set (ops ++ [SetPrecursors ps]) = Some (mkset ps)) by (unfold last_set; rewrite precursors_of_snoc, rev_app_distr; reflexivity). rewrite L.
  destruct (negb b && match last_set ops with Some old => list_eqb (mkset ps) old | None => false end) eqn:Same.
  - apply andb_true_iff in Same as [_ Same]. destruct (last_set ops) as [old|] eqn:Lo; [|discriminate]. apply list_eqb_iff in Same as <-. split; [|split].
    + intros x Hx. rewrite map_app. apply in_app_iff. left. exact (H1 x Hx).
    + exact H2.
    + intros Hst Hall. apply (H3 Hst). intros a c Ha Hc. apply Hall; apply in_app_iff; left; assumption.
  - split; [|split].
    + intros x Hx. rewrite map_app. apply in_app_iff in Hx as [Hx|[<-|[]]]; apply in_app_iff; [left; exact (H1 x Hx)|right; left; reflexivity].
    + exists hist. apply Permutation_sym, Permutation_cons_append.
    + intros Hst Hall. rewrite (H3 Hst) by (intros a c Ha Hc; apply Hall; apply in_app_iff; left; assumption). rewrite (Hb Hst) in Same. cbn [negb andb] in Same.
      destruct (last_set ops) as [old|] eqn:Lo; [|reflexivity]. exfalso. apply last_set_in in Lo as (q & Hq & ->).
      rewrite (Hall ps q), (proj2 (list_eqb_iff _ _) eq_refl) in Same; [discriminate|apply in_app_iff; right; left; reflexivity|apply in_app_iff; left; exact Hq].
Qed.

Lemma run_inv strict ops : forall done w hist, (strict = true -> w_listed w = false) -> inv w (last_set done) (last_target done) hist -> hist_ok strict done hist -> Forall (acceptable entries) done -> Forall (acceptable entries) ops ->
  exists w' hist', run_ops w ops = Ok w' /\ inv w' (last_set (done ++ ops)) (last_target (done ++ ops)) hist' /\ hist_ok strict (done ++ ops) hist'.
Proof.
  induction ops as [|o ops IH]; intros done w hist Hb Hi Hh Hd Ha; [rewrite app_nil_r; exists w, hist; auto|]. inversion Ha as [|? ? Ho Ha']; subst. cbn [run_ops].
  assert (Step : exists w1 hist1, run_op w o = Ok w1 /\ inv w1 (last_set (done ++ [o])) (last_target (done ++ [o])) hist1 /\ hist_ok strict (done ++ [o]) hist1 /\ (strict = true -> w_listed w1 = false)).
  { destruct o as [ps|t].
    - destruct Ho as [Ho1 Ho2]. destruct (step_precursors w _ _ hist ps Hi) as (w1 & R1 & I1 & B1); [|exact Ho1|exact Ho2|].
      + intros q Hq. apply last_set_in in Hq as (q' & Hq & ->). apply mkset_nonempty. rewrite Forall_forall in Hd.
        unfold precursors_of in Hq. apply in_flat_map in Hq as ([q2|t] & Hin & Hq); [|destruct Hq]. destruct Hq as [<-|[]]. apply (Hd _ Hin).
      + exists w1. eexists. split; [exact R1|]. split; [|split; [apply (hist_step strict (w_listed w)); [exact Hb|exact Hh]|intros _; exact B1]].
        replace (last_set (done ++ [SetPrecursors ps])) with (Some (mkset ps)) by (unfold last_set; rewrite precursors_of_snoc, rev_app_distr; reflexivity).
        replace (last_target (done ++ [SetPrecursors ps])) with (last_target done) by (unfold last_target; rewrite targets_of_snoc, app_nil_r; reflexivity). exact I1.
    - destruct (step_target w _ _ hist t Hi Ho) as (w1 & R1 & I1 & B1). exists w1, hist. split; [exact R1|].
      assert (L : last_set (done ++ [SetTarget t]) = last_set done) by (unfold last_set; rewrite precursors_of_snoc, app_nil_r; reflexivity).
      split; [rewrite L|split; [unfold hist_ok; rewrite L, precursors_of_snoc, app_nil_r; exact Hh|rewrite B1; exact Hb]].
      replace (last_target (done ++ [SetTarget t])) with (Some t) by (unfold last_target; rewrite targets_of_snoc, rev_app_distr; reflexivity). exact I1. }
  destruct Step as (w1 & hist1 & R1 & I1 & H1 & B1). rewrite R1. cbn [bind]. replace (done ++ o :: ops) with ((done ++ [o]) ++ ops) by (rewrite <- app_assoc; reflexivity).
  apply (IH _ w1 hist1 B1 I1 H1); [|exact Ha']. apply Forall_app. split; [exact Hd|constructor; [exact Ho|constructor]].
Qed.

Lemma inv_data w P T hist : inv w P T hist -> exists g, w_graph w = Some g /\ w_precursors w = P /\ w_target w = T /\ Permutation (node_data g) (base ++ pnode P ++ tnode T)
  /\ Permutation (data_edges g) (flat_map (D (map Some base)) E0 ++ flat_map dL hist ++ flat_map dedges_of (pnode P ++ tnode T))
  /\ distinct_nodes g /\ closed g.
Proof.
  intros (b & g & ext & -> & Hs & Hf & Hp & He). exists g. split; [reflexivity|]. split; [reflexivity|]. split; [reflexivity|].
  assert (Hall : forall l : list node, flat_map (fun s : option node => match s with Some n => [n] | None => [] end) (map Some l) = l) by (induction l as [|x l IH]; [reflexivity|]; simpl; rewrite IH; reflexivity).
  split; [|split; [|split]].
  - unfold node_data. rewrite Hs, Hall. apply Permutation_app_head. exact Hp.
  - unfold data_edges. rewrite Hs. change (fun e : nat * nat * payload => _) with (D (map Some (base ++ ext))).
    eapply perm_trans; [apply Permutation_flat_map'; exact He|]. rewrite !flat_map_app. rewrite (D_inside ext E0 HE0). rewrite <- app_assoc. apply Permutation_app_head.
    rewrite flat_map_flat_map. rewrite (flat_map_ext _ _ (D_iL ext) hist). apply Permutation_app_head.
    pose proof (D_extE ext [] ext eq_refl) as HD. cbn [length] in HD. rewrite Nat.add_0_r in HD. rewrite HD, <- flat_map_app. apply Permutation_flat_map'. exact Hp.
  - intros i j n Hi Hj. unfold has in Hi, Hj. rewrite Hs in Hi, Hj. rewrite nth_map_some in Hi, Hj.
    assert (N : NoDup (base ++ ext)).
    { apply NoDup_app_intro; [exact Hnd| |].
      - apply (Permutation_NoDup (Permutation_sym Hp)). destruct P, T; simpl; repeat constructor; simpl; intuition congruence.
      - intros x Hx Hy. pose proof (ext_special ext P T Hp) as Sp. rewrite Forall_forall in Sp. destruct (Hbase x Hx) as [E|E], (Sp x Hy) as [E'|E']; congruence. }
    apply (proj1 (NoDup_nth_error (base ++ ext)) N); [apply nth_error_Some; congruence|congruence].
  - assert (Hin : forall i, i < length (base ++ ext) -> exists n, has g i n).
    { intros i Hi. unfold has. rewrite Hs. destruct (nth_error (base ++ ext) i) as [n|] eqn:Q; [exists n; apply nth_map_some; exact Q|]. apply nth_error_None in Q. lia. }
    rewrite app_length in Hin. fold n0 in Hin. intros i j e Hij. apply (Permutation_in _ He) in Hij. apply in_app_iff in Hij as [Hij|Hij].
    + pose proof (hist_inside hist) as Hx. rewrite Forall_forall in Hx. destruct (Hx _ Hij) as [A B]. cbn [fst snd] in A, B. split; apply Hin; lia.
    + apply extE_in in Hij as (m & n & Hm & Hij). apply edges_of_ends in Hij as [[-> Hj]|[Hj ->]]; split; apply Hin; lia.
Qed.

(* --- what the added edges are --- *)
Lemma in_dP ps d : In d (dP ps) <-> exists y, In (Reactants, y) base /\ is_subset y ps /\ d = ((Precursors, ps), (Reactants, y), PrecursorEdge).
Proof.
  unfold dP. rewrite in_flat_map. split.
  - intros ([ty y] & Hy & H). cbn [fst snd] in H. destruct ty; try destruct H. destruct (subset y ps) eqn:S; [|destruct H]. destruct H as [<-|[]]. exists y. split; [exact Hy|]. split; [|reflexivity].
    exact (proj1 (subset_iff y ps) S).
  - intros (y & Hy & S & ->). exists (Reactants, y). split; [exact Hy|]. cbn [fst snd]. rewrite (proj2 (subset_iff y ps) S). left. reflexivity.
Qed.
Lemma in_dT t d : In d (dT t) <-> exists x, In (Products, x) base /\ In t x /\ d = ((Products, x), (Target, [t]), TargetEdge).
Proof.
  unfold dT. rewrite in_flat_map. split.
  - intros ([ty x] & Hx & H). cbn [fst snd] in H. destruct (ntype_eqb ty Products) eqn:T; [|destruct H]. apply ntype_eqb_iff in T as ->. cbn [andb] in H. destruct (inb t x) eqn:I; [|destruct H].
    destruct H as [<-|[]]. apply inb_iff in I. exists x. auto.
  - intros (x & Hx & I & ->). exists (Products, x). split; [exact Hx|]. cbn [fst snd ntype_eqb andb]. rewrite (proj2 (inb_iff t x) I). left. reflexivity.
Qed.
Lemma in_dL ps d : In d (dL ps) <-> justified ps d /\ In (fst (fst d)) base /\ In (snd (fst d)) base.
Proof.
  unfold dL. rewrite in_flat_map. split.
  - intros ([ty x] & Hx & H). cbn [fst snd] in H. destruct ty; try destruct H. apply in_flat_map in H as ([ty y] & Hy & H). cbn [fst snd] in H.
    destruct (ntype_eqb ty Reactants && negb (subset y ps) && subset y (ps ++ x)) eqn:C; [|destruct H]. destruct H as [<-|[]].
    apply andb_true_iff in C as [C C3]. apply andb_true_iff in C as [C1 C2]. apply ntype_eqb_iff in C1 as ->. split; [|split; [exact Hx|exact Hy]].
    exists x, y. split; [reflexivity|]. split.
    + rewrite subset_iff in C3. intros e He. apply in_app_iff. exact (C3 e He).
    + intros Hs. apply negb_true_iff in C2. rewrite (proj2 (subset_iff y ps) Hs) in C2. discriminate.
  - intros ((x & y & -> & H1 & H2) & Hx & Hy). cbn [fst snd] in Hx, Hy. exists (Products, x). split; [exact Hx|]. cbn [fst snd]. apply in_flat_map. exists (Reactants, y). split; [exact Hy|].
    cbn [fst snd ntype_eqb andb]. replace (subset y ps) with false; [|symmetry; apply not_true_iff_false; rewrite subset_iff; exact H2].
    rewrite (proj2 (subset_iff y (ps ++ x))); [left; reflexivity|]. intros e He. apply in_app_iff. exact (H1 e He).
Qed.
Lemma nodup_dP ps : NoDup (dP ps).
Proof.
  apply NoDup_flat_map; [exact Hnd| |].
  - intros [ty y] _. cbn [fst snd]. destruct ty; try constructor. destruct (subset y ps); repeat constructor; intros [].
  - intros [ty y] [ty' y'] e _ _ H H'. cbn [fst snd] in H, H'. destruct ty; try destruct H. destruct ty'; try destruct H'. destruct (subset y ps); [|destruct H]. destruct (subset y' ps); [|destruct H'].
    destruct H as [<-|[]]. destruct H' as [H'|[]]. congruence.
Qed.
Lemma nodup_dT t : NoDup (dT t).
Proof.
  apply NoDup_flat_map; [exact Hnd| |].
  - intros x _. destruct (ntype_eqb (fst x) Products && inb t (snd x)); repeat constructor; intros [].
  - intros x x' e _ _ H H'. destruct (ntype_eqb (fst x) Products && inb t (snd x)); [|destruct H]. destruct (ntype_eqb (fst x') Products && inb t (snd x')); [|destruct H'].
    destruct H as [<-|[]]. destruct H' as [H'|[]]. congruence.
Qed.
Lemma nodup_dL ps : NoDup (dL ps).
Proof.
  apply NoDup_flat_map; [exact Hnd| |].
  - intros [ty x] _. cbn [fst snd]. destruct ty; try constructor. apply NoDup_flat_map; [exact Hnd| |].
    + intros y _. match goal with |- context [if ?c then _ else _] => destruct c end; repeat constructor; intros [].
    + intros y y' e _ _ H H'. cbn [fst snd] in H, H'. destruct (ntype_eqb (fst y) Reactants && negb (subset (snd y) ps) && subset (snd y) (ps ++ x)); [|destruct H].
      destruct (ntype_eqb (fst y') Reactants && negb (subset (snd y') ps) && subset (snd y') (ps ++ x)); [|destruct H']. destruct H as [<-|[]]. destruct H' as [H'|[]]. congruence.
  - intros [ty x] [ty' x'] e _ _ H H'. cbn [fst snd] in H, H'. destruct ty; try destruct H. destruct ty'; try destruct H'.
    apply in_flat_map in H as (y & _ & H). apply in_flat_map in H' as (y' & _ & H').
    match type of H with In _ (if ?c then _ else _) => destruct c; [|destruct H] end. match type of H' with In _ (if ?c then _ else _) => destruct c; [|destruct H'] end.
    destruct H as [<-|[]]. destruct H' as [H'|[]]. congruence.
Qed.
End History.

(* --- the network made by build() --- *)
Section Net.
Variable entries : list nat.
Variable rxns : list nrxn.
Hypothesis Hr : rxns <> [].
Let base := fst (rxn_nodes_and_edges rxns).
Let E0 := g_edges (build rxns).

Lemma base_types n : In n base -> fst n = Reactants \/ fst n = Products.
Proof.
  destruct (rxn_nodes_spec rxns) as (_ & N2 & _). fold base in N2. intros H. rewrite Forall_forall in N2. destruct (N2 n H) as (r & _ & [-> | ->]); auto.
Qed.
Lemma base_nodup : NoDup base.
Proof. apply (rxn_nodes_spec rxns). Qed.
Lemma base_nonempty : base <> [].
Proof.
  destruct (rxn_nodes_spec rxns) as (_ & _ & N3). fold base in N3. intros H. rewrite H in N3. destruct rxns as [|r l]; [contradiction|].
  inversion N3 as [|? ? ? ? (i & j & _ & Hi & _)]; subst. destruct i; discriminate.
Qed.
Lemma E0_inside : Forall (inside base) E0.
Proof.
  destruct (rxn_nodes_spec rxns) as (_ & _ & N3). destruct (build_parts rxns) as (_ & _ & S3). fold base in N3, S3. unfold E0. rewrite S3. apply Forall_forall. intros e He. apply in_rev in He.
  apply in_app_iff in He as [He|He].
  - destruct (Forall2_In_r _ _ _ _ N3 He) as (r & _ & (i & j & -> & Hi & Hj)). split; cbn [fst snd]; apply nth_error_Some; congruence.
  - apply (proj2 (loopback_spec base)) in He as (i & j & x & -> & Hi & Hj). split; cbn [fst snd]; apply nth_error_Some; congruence.
Qed.
Lemma inv_start : inv base entries rxns E0 (net_build (new_network entries rxns)) None None [].
Proof.
  destruct (build_parts rxns) as (S1 & S2 & S3). exists false, (build rxns), []. split; [reflexivity|]. rewrite app_nil_r. split; [exact S1|]. split; [exact S2|]. split; [constructor|].
  cbn [flat_map extE]. rewrite !app_nil_r. apply Permutation_refl.
Qed.
Lemma run_history ops : Forall (acceptable entries) ops ->
  exists w hist, run_ops (net_build (new_network entries rxns)) ops = Ok w /\ inv base entries rxns E0 w (last_set ops) (last_target ops) hist /\ hist_ok true ops hist.
Proof.
  intros Ha. apply (run_inv base base_types entries rxns E0 E0_inside base_nonempty true ops [] _ []); [reflexivity|exact inv_start| |constructor|exact Ha].
  split; [intros x []|split; reflexivity].
Qed.
Lemma last_calls_sets ops : precursors_of (last_calls ops) = match rev (precursors_of ops) with [] => [] | ps :: _ => [ps] end
  /\ targets_of (last_calls ops) = match rev (targets_of ops) with [] => [] | t :: _ => [t] end.
Proof. unfold last_calls. destruct (rev (precursors_of ops)), (rev (targets_of ops)); split; reflexivity. Qed.
Lemma last_calls_acceptable ops : Forall (acceptable entries) ops -> Forall (acceptable entries) (last_calls ops).
Proof.
  intros Ha. rewrite Forall_forall in *. intros o Ho. unfold last_calls in Ho. apply in_app_iff in Ho as [Ho|Ho].
  - destruct (rev (precursors_of ops)) as [|ps l] eqn:R; [destruct Ho|]. destruct Ho as [<-|[]]. assert (Hin : In ps (precursors_of ops)) by (apply in_rev; rewrite R; left; reflexivity).
    unfold precursors_of in Hin. apply in_flat_map in Hin as ([q|t] & Hq & Hin); [|destruct Hin]. destruct Hin as [<-|[]]. exact (Ha _ Hq).
  - destruct (rev (targets_of ops)) as [|t l] eqn:R; [destruct Ho|]. destruct Ho as [<-|[]]. assert (Hin : In t (targets_of ops)) by (apply in_rev; rewrite R; left; reflexivity).
    unfold targets_of in Hin. apply in_flat_map in Hin as ([q|t'] & Hq & Hin); [destruct Hin|]. destruct Hin as [<-|[]]. exact (Ha _ Hq).
Qed.

(* The graph of w against the graph of the last calls. *)
Definition compared (strict : bool) (ops : list net_op) (w : network) : Prop :=
  exists w2 g g2 stale, run_ops (net_build (new_network entries rxns)) (last_calls ops) = Ok w2
  /\ w_graph w = Some g /\ w_graph w2 = Some g2 /\ w_precursors w = w_precursors w2 /\ w_target w = w_target w2
  /\ Permutation (node_data g) (node_data g2) /\ Permutation (data_edges g) (data_edges g2 ++ stale)
  /\ Forall (fun d => exists ps, In ps (precursors_of ops) /\ justified ps d) stale
  /\ (strict = true -> (forall a b, In a (precursors_of ops) -> In b (precursors_of ops) -> forall e, In e a <-> In e b) -> stale = [])
  /\ distinct_nodes g /\ closed g.
Lemma inv_compared strict ops w hist : Forall (acceptable entries) ops -> inv base entries rxns E0 w (last_set ops) (last_target ops) hist -> hist_ok strict ops hist -> compared strict ops w.
Proof.
  intros Ha I (H1 & H2 & H3). destruct (run_history _ (last_calls_acceptable ops Ha)) as (w2 & hist2 & R2 & I2 & (K1 & K2 & K3)).
  destruct (last_calls_sets ops) as [L1 L2].
  assert (EP : last_set (last_calls ops) = last_set ops) by (unfold last_set; rewrite L1; destruct (rev (precursors_of ops)); reflexivity).
  assert (ET : last_target (last_calls ops) = last_target ops) by (unfold last_target; rewrite L2; destruct (rev (targets_of ops)); reflexivity).
  rewrite EP, ET in *. assert (EH : hist2 = match last_set ops with None => [] | Some p => [p] end).
  { apply (K3 eq_refl). rewrite L1. destruct (rev (precursors_of ops)); [intros a b []|]. intros a b [<-|[]] [<-|[]]. reflexivity. }
  destruct (inv_data base base_types entries rxns E0 E0_inside base_nodup _ _ _ _ I) as (g & G1 & G2 & G3 & G4 & G5 & G6 & G7).
  destruct (inv_data base base_types entries rxns E0 E0_inside base_nodup _ _ _ _ I2) as (g2 & G1' & G2' & G3' & G4' & G5' & _).
  assert (Hpre : exists pre, Permutation hist (hist2 ++ pre) /\ (strict = true -> (forall a b, In a (precursors_of ops) -> In b (precursors_of ops) -> mkset a = mkset b) -> pre = [])).
  { rewrite EH. destruct (last_set ops) as [p|]; [|exists []; split; [rewrite H2; constructor|reflexivity]]. destruct H2 as (pre & H2). exists pre. split; [exact H2|].
    intros Hst Hall. rewrite (H3 Hst Hall) in H2. apply Permutation_length in H2. destruct pre; [reflexivity|discriminate]. }
  destruct Hpre as (pre & P1 & P2). exists w2, g, g2, (flat_map (dL base) pre). split; [exact R2|]. split; [exact G1|]. split; [exact G1'|]. split; [congruence|]. split; [congruence|].
  split; [eapply perm_trans; [exact G4|apply Permutation_sym; exact G4']|]. split; [|split; [|split; [|split; [exact G6|exact G7]]]].
  - eapply perm_trans; [exact G5|]. eapply perm_trans; [|apply Permutation_app_tail, Permutation_sym; exact G5']. rewrite <- app_assoc. apply Permutation_app_head.
    eapply perm_trans; [apply Permutation_app_tail, Permutation_flat_map'; exact P1|]. rewrite flat_map_app, <- !app_assoc. apply Permutation_app_head, Permutation_app_comm.
  - apply Forall_forall. intros d Hd. apply in_flat_map in Hd as (q & Hq & Hd). assert (Hh : In q hist) by (apply (Permutation_in _ (Permutation_sym P1)), in_app_iff; right; exact Hq).
    apply H1, in_map_iff in Hh as (ps & <- & Hps). exists ps. split; [exact Hps|]. apply in_dL in Hd as [(x & y & E & J1 & J2) _].
    destruct (set_of_mkset ps) as [_ Hm]. exists x, y. split; [exact E|]. split; [intros e He; destruct (J1 e He) as [J|J]; [left; apply Hm; exact J|right; exact J]|].
    intros Hs. apply J2. intros e He. apply Hm, Hs. exact He.
  - intros Hst Hall. rewrite P2; [reflexivity|exact Hst|]. intros a b Hx Hy. apply sorted_unique; [apply set_of_mkset|apply set_of_mkset|]. intros e.
    rewrite (proj2 (set_of_mkset a) e), (proj2 (set_of_mkset b) e). apply Hall; assumption.
Qed.

Theorem history_spec ops : Forall (acceptable entries) ops ->
  exists w w2 g g2 stale, run_ops (net_build (new_network entries rxns)) ops = Ok w /\ run_ops (net_build (new_network entries rxns)) (last_calls ops) = Ok w2
  /\ w_graph w = Some g /\ w_graph w2 = Some g2 /\ w_precursors w = w_precursors w2 /\ w_target w = w_target w2
  /\ Permutation (node_data g) (node_data g2) /\ Permutation (data_edges g) (data_edges g2 ++ stale)
  /\ Forall (fun d => exists ps, In ps (precursors_of ops) /\ justified ps d) stale
  /\ ((forall a b, In a (precursors_of ops) -> In b (precursors_of ops) -> forall e, In e a <-> In e b) -> stale = [])
  /\ distinct_nodes g /\ closed g.
Proof.
  intros Ha. destruct (run_history ops Ha) as (w & hist & R & I & H). destruct (inv_compared true ops w hist Ha I H) as (w2 & g & g2 & stale & C1 & C2 & C3 & C4 & C5 & C6 & C7 & C8 & C9 & C10).
  exists w, w2, g, g2, stale. split; [exact R|]. split; [exact C1|]. split; [exact C2|]. split; [exact C3|]. split; [exact C4|]. split; [exact C5|]. split; [exact C6|]. split; [exact C7|].
  split; [exact C8|]. split; [exact (C9 eq_refl)|exact C10].
Qed.

(* --- reading a network back --- *)
Lemma inv_reload order w P T hist : (forall l, Permutation (order l) l) -> (forall q, P = Some q -> q <> []) -> inv base entries rxns E0 w P T hist ->
  exists w', net_round_trip order w = Ok w' /\ inv base entries rxns E0 w' P T hist.
Proof.
  intros Ho HP Hi. destruct (inv_data base base_types entries rxns E0 E0_inside base_nodup _ _ _ _ Hi) as (g & G1 & _ & _ & _ & _ & G6 & G7).
  destruct Hi as (b & g0 & ext & -> & Hs & Hf & Hp & He). cbn [w_graph] in G1. injection G1 as ->.
  destruct (round_trip node_eqb node_eqb_iff order Ho g G6 G7) as (g' & f & R1 & R2 & R3 & _ & _ & R4).
  unfold net_round_trip. cbn [w_graph w_precursors w_entries w_rxns w_target]. rewrite R1. cbn [bind]. eexists. split; [reflexivity|].
  assert (HT : (if truthy P then P else None) = P) by (destruct P as [[|x l]|]; [destruct (HP [] eq_refl eq_refl)|reflexivity|reflexivity]). rewrite HT.
  exists true, g', ext. split; [reflexivity|].
  assert (Hs' : g_slots g' = map Some (base ++ ext)).
  { rewrite R4, (nodes_full g _ Hs). f_equal. clear. unfold enumerate. generalize 0. induction (base ++ ext) as [|x l IH]; intros n; [reflexivity|]. cbn [length seq combine map snd]. rewrite IH. reflexivity. }
  split; [exact Hs'|]. split; [exact R3|]. split; [exact Hp|]. destruct R2 as (F1 & F2 & F3 & F4).
  assert (Hf1 : forall i n, has g i n -> f i = i).
  { intros i n Hi. pose proof (F1 i n Hi) as Hi'. apply (G6 _ _ n); [|exact Hi]. unfold has in *. rewrite Hs' in Hi'. rewrite Hs. exact Hi'. }
  eapply perm_trans; [exact F4|]. replace (map (fun e : nat * nat * payload => (f (fst (fst e)), f (snd (fst e)), snd e)) (g_edges g)) with (g_edges g); [exact He|].
  rewrite <- (map_id (g_edges g)) at 1. apply map_ext_in. intros [[i j] p] Hin. destruct (G7 i j p Hin) as [[n Hi] [m Hj]]. cbn [fst snd]. rewrite (Hf1 i n Hi), (Hf1 j m Hj). reflexivity.
Qed.
Lemma last_set_nonempty ops q : Forall (acceptable entries) ops -> last_set ops = Some q -> q <> [].
Proof.
  intros Ha Hq. apply last_set_in in Hq as (q' & Hq & ->). apply mkset_nonempty. rewrite Forall_forall in Ha.
  unfold precursors_of in Hq. apply in_flat_map in Hq as ([q2|t] & Hin & Hq); [|destruct Hq]. destruct Hq as [<-|[]]. apply (Ha _ Hin).
Qed.
Theorem reload_spec order ops ops2 w : (forall l, Permutation (order l) l) -> Forall (acceptable entries) ops -> Forall (acceptable entries) ops2 ->
  run_ops (net_build (new_network entries rxns)) ops = Ok w ->
  exists w' w3 w2 g g2 stale, net_round_trip order w = Ok w' /\ run_ops w' ops2 = Ok w3
  /\ run_ops (net_build (new_network entries rxns)) (last_calls (ops ++ ops2)) = Ok w2
  /\ w_graph w3 = Some g /\ w_graph w2 = Some g2 /\ w_precursors w3 = w_precursors w2 /\ w_target w3 = w_target w2
  /\ Permutation (node_data g) (node_data g2) /\ Permutation (data_edges g) (data_edges g2 ++ stale)
  /\ Forall (fun d => exists ps, In ps (precursors_of (ops ++ ops2)) /\ justified ps d) stale.
Proof.
  intros Ho Ha Ha2 HR. destruct (run_history ops Ha) as (w0 & hist & R & I & (H1 & H2 & H3)). rewrite HR in R. injection R as <-.
  destruct (inv_reload order w _ _ _ Ho (fun q => last_set_nonempty ops q Ha) I) as (w' & R1 & I1).
  destruct (run_inv base base_types entries rxns E0 E0_inside base_nonempty false ops2 ops w' hist) as (w3 & hist3 & R3 & I3 & H4); [discriminate|exact I1|split; [exact H1|split; [exact H2|discriminate]]|exact Ha|exact Ha2|].
  destruct (inv_compared false (ops ++ ops2) w3 hist3 (proj2 (Forall_app _ _ _) (conj Ha Ha2)) I3 H4) as (w2 & g & g2 & stale & C1 & C2 & C3 & C4 & C5 & C6 & C7 & C8 & _).
  exists w', w3, w2, g, g2, stale. auto 12.
Qed.
Theorem reload_graph order ops w : (forall l, Permutation (order l) l) -> Forall (acceptable entries) ops -> run_ops (net_build (new_network entries rxns)) ops = Ok w ->
  exists w' g g', net_round_trip order w = Ok w' /\ w_graph w = Some g /\ w_graph w' = Some g' /\ renumbered (fun i => i) g g'
  /\ w_entries w' = w_entries w /\ w_rxns w' = w_rxns w /\ w_precursors w' = w_precursors w /\ w_target w' = w_target w.
Proof.
  intros Ho Ha HR. destruct (run_history ops Ha) as (w0 & hist & R & I & _). rewrite HR in R. injection R as <-.
  destruct (inv_data base base_types entries rxns E0 E0_inside base_nodup _ _ _ _ I) as (g & G1 & _ & _ & _ & _ & G6 & G7).
  destruct I as (b & g0 & ext & -> & Hs & Hf & Hp & He). cbn [w_graph] in G1. injection G1 as ->.
  destruct (round_trip node_eqb node_eqb_iff order Ho g G6 G7) as (g' & f & R1 & (F1 & F2 & F3 & F4) & R3 & _ & _ & R4).
  unfold net_round_trip. cbn [w_graph w_precursors w_entries w_rxns w_target]. rewrite R1. cbn [bind]. eexists. exists g, g'. split; [reflexivity|]. split; [reflexivity|]. split; [reflexivity|].
  assert (HT : (if truthy (last_set ops) then last_set ops else None) = last_set ops).
  { destruct (last_set ops) as [[|x l]|] eqn:E; [destruct (last_set_nonempty ops [] Ha E eq_refl)|reflexivity|reflexivity]. }
  split; [|cbn; rewrite HT; auto].
  assert (Hs' : g_slots g' = g_slots g).
  { rewrite R4, (nodes_full g _ Hs), Hs. f_equal. clear. unfold enumerate. generalize 0. induction (base ++ ext) as [|x l IH]; intros n; [reflexivity|]. cbn [length seq combine map snd]. rewrite IH. reflexivity. }
  assert (Hf1 : forall i n, has g i n -> f i = i).
  { intros i n Hi. pose proof (F1 i n Hi) as Hi'. apply (G6 _ _ n); [|exact Hi]. unfold has in *. rewrite Hs' in Hi'. exact Hi'. }
  split; [|split; [|split]].
  - intros i n Hi. unfold has. rewrite Hs'. exact Hi.
  - intros j n Hj. exists j. split; [unfold has in *; rewrite Hs' in Hj; exact Hj|reflexivity].
  - auto.
  - eapply perm_trans; [exact F4|]. erewrite map_ext_in; [apply Permutation_refl|]. intros [[i j] p] Hin. destruct (G7 i j p Hin) as [[n Hi] [m Hj]]. cbn [fst snd]. rewrite (Hf1 i n Hi), (Hf1 j m Hj). reflexivity.
Qed.

Theorem setters_spec ps t : ps <> [] -> is_subset ps entries -> In t entries ->
  exists w g x new, run_ops (net_build (new_network entries rxns)) [SetPrecursors ps; SetTarget t] = Ok w /\ w_graph w = Some g /\ set_of ps x
  /\ Permutation (node_data g) (node_data (build rxns) ++ [(Precursors, x); (Target, [t])])
  /\ Permutation (data_edges g) (data_edges (build rxns) ++ new) /\ NoDup new
  /\ forall d, In d new <->
       (exists y, In (Reactants, y) (node_data (build rxns)) /\ is_subset y ps /\ d = ((Precursors, x), (Reactants, y), PrecursorEdge))
       \/ (exists y, In (Products, y) (node_data (build rxns)) /\ In t y /\ d = ((Products, y), (Target, [t]), TargetEdge))
       \/ (justified ps d /\ In (fst (fst d)) (node_data (build rxns)) /\ In (snd (fst d)) (node_data (build rxns))).
Proof.
  intros Hps Hsub Ht. assert (Ha : Forall (acceptable entries) [SetPrecursors ps; SetTarget t]) by (constructor; [split; assumption|constructor; [exact Ht|constructor]]).
  destruct (run_history _ Ha) as (w & hist & R & I & (H1 & H2 & H3)). assert (EH : hist = [mkset ps]).
  { apply (H3 eq_refl). intros a b [<-|[]] [<-|[]]. reflexivity. }
  destruct (inv_data base base_types entries rxns E0 E0_inside base_nodup _ _ _ _ I) as (g & G1 & G2 & G3 & G4 & G5 & _).
  cbn [last_set last_target precursors_of targets_of flat_map app rev pnode tnode] in G4, G5. rewrite EH in G5. cbn [flat_map dedges_of] in G5. rewrite !app_nil_r in G5.
  destruct (build_parts rxns) as (S1 & _ & _). fold base in S1.
  assert (ND : node_data (build rxns) = base). { unfold node_data. rewrite S1. clear. generalize base. intros l. induction l as [|x l IH]; [reflexivity|]. simpl. rewrite IH. reflexivity. }
  assert (DE : data_edges (build rxns) = flat_map (D (map Some base)) E0) by (unfold data_edges; rewrite S1; reflexivity).
  rewrite ND, DE. exists w, g, (mkset ps), (dL base (mkset ps) ++ dP base (mkset ps) ++ dT base t). split; [exact R|]. split; [exact G1|]. split; [apply set_of_mkset|]. split; [exact G4|]. split; [exact G5|].
  assert (Hm : forall e, In e (mkset ps) <-> In e ps) by apply set_of_mkset.
  assert (Hj : forall d, justified (mkset ps) d <-> justified ps d).
  { intros d. unfold justified, is_subset. split; intros (x & y & E & J1 & J2); exists x, y; (split; [exact E|split; [intros e He; rewrite ?Hm, <- ?Hm; specialize (J1 e He); rewrite ?Hm in *; exact J1|]]);
      intros Hs; apply J2; intros e He; apply Hm, Hs; exact He. }
  split.
  - apply NoDup_app_intro; [apply nodup_dL; exact base_nodup| |].
    + apply NoDup_app_intro; [apply nodup_dP; exact base_nodup|apply nodup_dT; exact base_nodup|]. intros d Hd Hd'. apply in_dP in Hd as (y & _ & _ & ->). apply in_dT in Hd' as (z & _ & _ & E). discriminate.
    + intros d Hd Hd'. apply in_dL in Hd as [(x & y & -> & _) _]. apply in_app_iff in Hd' as [Hd'|Hd']; [apply in_dP in Hd' as (z & _ & _ & E)|apply in_dT in Hd' as (z & _ & _ & E)]; discriminate.
  - intros d. rewrite !in_app_iff, in_dL, in_dP, in_dT, Hj. unfold is_subset.
    assert (Hsb : (exists y, In (Reactants, y) base /\ (forall e, In e y -> In e (mkset ps)) /\ d = (Precursors, mkset ps, (Reactants, y), PrecursorEdge))
               <-> exists y, In (Reactants, y) base /\ (forall e, In e y -> In e ps) /\ d = (Precursors, mkset ps, (Reactants, y), PrecursorEdge)).
    { split; intros (y & Y1 & Y2 & Y3); exists y; (split; [exact Y1|split; [intros e He; apply Hm, Y2; exact He|exact Y3]]). }
    rewrite Hsb. tauto.
Qed.
End Net.
