(* Proofs about chemical potential distances: C87-C89. *)
From Coq Require Import String Lqa.
From Verif Require Import Prelude NumQ ListFacts SumQ UtilsModel UtilsProofs ReactionModel ReactionBaseProofs RxnSetBaseProofs EntrySetModel EntrySetProofs JobsModel JobsProofs EnumReactProofs SolverModel SolverProofs SolverInterProofs UtilsSpec EnumModel RunModel RunProofs CpdModel CpdSpec.
Open Scope list_scope.
Open Scope nat_scope.

(* --- the interfaces --- *)
Lemma in_side pick r e : In e (side pick r) <-> exists c, In (e, c) (c_entries r) /\ pick c = true /\ counted r e.
Proof.
  unfold side, counted. rewrite in_map_iff. split.
  - intros ([e' c] & <- & H). apply filter_In in H as [H E]. apply andb_true_iff in E as [E1 E2]. exists c. cbn [fst snd] in *. split; [exact H|]. split; [exact E1|]. destruct (c_grand r); [exact E2|exact I].
  - intros (c & H & E & G). exists (e, c). split; [reflexivity|]. apply filter_In. split; [exact H|]. cbn [fst snd]. rewrite E. destruct (c_grand r); [exact G|reflexivity].
Qed.
Lemma in_reactants r e : In e (reactant_side r) <-> consumed r e.
Proof. unfold reactant_side, consumed. rewrite in_side. split; [intros (c & H & E & G)|intros [(c & H & E) G]]; [split; [exists c|exact G]; apply Qlt_bool_iff' in E; tauto|exists c; rewrite Qlt_bool_iff'; tauto]. Qed.
Lemma in_products r e : In e (product_side r) <-> formed r e.
Proof. unfold product_side, formed. rewrite in_side. split; [intros (c & H & E & G)|intros [(c & H & E) G]]; [split; [exists c|exact G]; apply Qlt_bool_iff' in E; tauto|exists c; rewrite Qlt_bool_iff'; tauto]. Qed.

Lemma NoDup_side pick r : NoDup (map fst (c_entries r)) -> NoDup (side pick r).
Proof.
  unfold side. generalize (fun ec : nat * Q => pick (snd ec) && match c_grand r with Some g => g (fst ec) | None => true end). intros f.
  induction (c_entries r) as [|x l IH]; cbn; intros H; [constructor|]. inversion H as [|y ys Hn Hd]. subst. destruct (f x); [cbn; constructor|]; [|apply IH; exact Hd|apply IH; exact Hd].
  intros Hi. apply Hn. apply in_map_iff in Hi as (z & E & Hz). apply filter_In in Hz as [Hz _]. rewrite <- E. apply in_map. exact Hz.
Qed.

Lemma in_pairs_product a b x y : In (x, y) (pairs_product a b) <-> In x a /\ In y b.
Proof.
  unfold pairs_product. rewrite in_flat_map. split.
  - intros (z & Hz & H). apply in_map_iff in H as (w & E & Hw). injection E as -> ->. tauto.
  - intros [Hx Hy]. exists x. split; [exact Hx|]. apply in_map. exact Hy.
Qed.
Lemma NoDup_pairs_product a b : NoDup a -> NoDup b -> NoDup (pairs_product a b).
Proof.
  intros Ha Hb. unfold pairs_product. induction Ha as [|x a Hn Ha IH]; cbn; [constructor|]. apply NoDup_app_intro; [|exact IH|].
  - apply FinFun.Injective_map_NoDup; [intros u v E; congruence|exact Hb].
  - intros [u v] H1 H2. apply in_map_iff in H1 as (w & E & _). injection E as -> ->. apply in_flat_map in H2 as (z & Hz & H2). apply in_map_iff in H2 as (w' & E' & _). injection E' as -> ->. contradiction.
Qed.
Lemma in_pairs_of_l l x y : In (x, y) (pairs_of l) -> In x l /\ In y l.
Proof.
  induction l as [|z l IH]; cbn; [tauto|]. intros H. apply in_app_iff in H as [H|H].
  - apply in_map_iff in H as (w & E & Hw). injection E as -> ->. tauto.
  - apply IH in H. tauto.
Qed.
Lemma pairs_of_spec l : NoDup l -> NoDup (pairs_of l) /\ (forall x y, In (x, y) (pairs_of l) -> x <> y /\ ~ In (y, x) (pairs_of l))
  /\ (forall x y, In x l -> In y l -> x <> y -> In (x, y) (pairs_of l) \/ In (y, x) (pairs_of l)).
Proof.
  induction 1 as [|z l Hn Hd (I1 & I2 & I3)]; cbn; [split; [constructor|split; tauto]|].
  split.
  { apply NoDup_app_intro; [apply FinFun.Injective_map_NoDup; [intros u v E; congruence|exact Hd]|exact I1|].
    intros [u v] H1 H2. apply in_map_iff in H1 as (w & E & _). injection E as -> ->. apply in_pairs_of_l in H2. tauto. }
  split.
  - intros x y H. apply in_app_iff in H as [H|H].
    + apply in_map_iff in H as (w & E & Hw). injection E as -> ->. split; [congruence|]. intros H'. apply in_app_iff in H' as [H'|H'].
      * apply in_map_iff in H' as (w' & E' & Hw'). injection E' as -> ->. contradiction.
      * apply in_pairs_of_l in H'. tauto.
    + destruct (I2 x y H) as [A B]. split; [exact A|]. intros H'. apply in_app_iff in H' as [H'|H']; [|contradiction].
      apply in_map_iff in H' as (w' & E' & Hw'). injection E' as -> ->. apply in_pairs_of_l in H. tauto.
  - intros x y [<-|Hx] [<-|Hy] Hxy; [congruence| | |].
    + left. apply in_or_app. left. apply in_map. exact Hy.
    + right. apply in_or_app. left. apply in_map. exact Hx.
    + destruct (I3 x y Hx Hy Hxy) as [H|H]; [left|right]; apply in_or_app; right; exact H.
Qed.

Lemma sign_once r e c c' : NoDup (map fst (c_entries r)) -> In (e, c) (c_entries r) -> In (e, c') (c_entries r) -> c = c'.
Proof.
  induction (c_entries r) as [|[k v] l IH]; cbn; [tauto|]. intros H. inversion H as [|y ys Hn Hd]. subst.
  assert (no : forall w, ~ In (k, w) l) by (intros w Hw; apply Hn; apply (in_map fst) in Hw; exact Hw).
  intros [E|E] [E'|E'].
  - congruence.
  - injection E as -> ->. destruct (no _ E').
  - injection E' as -> ->. destruct (no _ E).
  - exact (IH Hd E E').
Qed.

Definition all_pairs (r : creaction) : list (nat * nat) := pairs_product (reactant_side r) (product_side r) ++ pairs_of (product_side r).
Lemma both_sides r e : NoDup (map fst (c_entries r)) -> consumed r e -> formed r e -> False.
Proof. intros Hnd [(c & H & L) _] [(c' & H' & L') _]. rewrite (sign_once r e c c' Hnd H H') in L. lra. Qed.
Lemma interfaces_spec r : NoDup (map fst (c_entries r)) -> interfaces r (all_pairs r).
Proof.
  intros Hnd. destruct (pairs_of_spec (product_side r) (NoDup_side _ r Hnd)) as (P1 & P2 & P3).
  assert (M : forall a b, In (a, b) (all_pairs r) <-> (consumed r a /\ formed r b) \/ In (a, b) (pairs_of (product_side r))).
  { intros a b. unfold all_pairs. rewrite in_app_iff, in_pairs_product, in_reactants, in_products. reflexivity. }
  assert (F : forall a b, In (a, b) (pairs_of (product_side r)) -> formed r a /\ formed r b).
  { intros a b H. apply in_pairs_of_l in H. rewrite !in_products in H. exact H. }
  constructor.
  - unfold all_pairs. apply NoDup_app_intro; [apply NoDup_pairs_product; apply NoDup_side; exact Hnd|exact P1|].
    intros [a b] H1 H2. apply in_pairs_product in H1 as [H1 _]. apply in_reactants in H1. apply F in H2 as [H2 _]. exact (both_sides r a Hnd H1 H2).
  - intros a b H. apply M in H as [[H1 H2]|H]; [tauto|]. destruct (F a b H). destruct (P2 a b H). tauto.
  - intros a b H1 H2. apply M. left. tauto.
  - intros a b Ha Hb Hab.
    assert (no : forall x y, formed r x -> formed r y -> In (x, y) (all_pairs r) <-> In (x, y) (pairs_of (product_side r))).
    { intros x y Hx Hy. rewrite M. split; [|tauto]. intros [[H _]|H]; [destruct (both_sides r x Hnd H Hx)|exact H]. }
    rewrite !no by assumption. destruct (P3 a b ltac:(apply in_products; exact Ha) ltac:(apply in_products; exact Hb) Hab) as [H|H]; [left|right]; (split; [exact H|]); apply P2 in H; tauto.
Qed.

(* --- aggregation --- *)
Lemma distances_ok (d : nat -> nat -> Q) l : mapM (fun p : nat * nat => Ok (d (fst p) (snd p))) l = Ok (map (fun p => d (fst p) (snd p)) l).
Proof. apply mapM_ok. reflexivity. Qed.

Lemma calculate_spec round5 d r : NoDup (map fst (c_entries r)) ->
  exists l, interfaces r l
  /\ let calc name := bind (mu_init (Name name)) (fun mu => calculate round5 (fun a b => Ok (d a b)) mu r) in
     let ds := map (fun p => d (fst p) (snd p)) l in
     (exists v, calc "sum"%string = Ok (Some (round5 v)) /\ total ds v)
  /\ ((l = [] /\ calc "max"%string = Err ValueError) \/ exists v, calc "max"%string = Ok (Some (round5 v)) /\ greatest ds v)
  /\ ((l = [] /\ calc "mean"%string = Ok None) \/ exists v, calc "mean"%string = Ok (Some (round5 v)) /\ average ds v).
Proof.
  intros Hnd. exists (all_pairs r). split; [apply interfaces_spec; exact Hnd|]. cbv zeta. unfold calculate. cbn [mu_init String.eqb Ascii.eqb Bool.eqb bind].
  fold (all_pairs r). rewrite distances_ok. cbn [bind].
  set (ds := map (fun p => d (fst p) (snd p)) (all_pairs r)).
  split; [exists (Qsum ds); split; [reflexivity|apply Qeq_refl]|].
  destruct (all_pairs r) as [|p ps] eqn:E.
  - split; left; split; reflexivity.
  - assert (Hne : ds <> []) by discriminate. split; right.
    + destruct (arr_max_spec ds Hne) as (m & Em & Hm). exists m. unfold agg_max. rewrite Em. split; [reflexivity|exact Hm].
    + exists (Qsum ds / inject_Z (Z.of_nat (length ds)))%Q. split; [reflexivity|]. split; [exact Hne|]. field.
      change 0%Q with (inject_Z 0). intros H. apply (proj1 (inject_Z_injective _ _)) in H. cbn in H. lia.
Qed.

Lemma unknown_name round5 d r s : s <> "sum"%string -> s <> "max"%string -> s <> "mean"%string ->
  bind (mu_init (Name s)) (fun mu => calculate round5 d mu r) = Err ValueError.
Proof.
  intros A B D. unfold mu_init. apply String.eqb_neq in A, B, D. rewrite A, B, D. reflexivity.
Qed.
Lemma custom_function round5 (d : nat -> nat -> Q) f r : bind (mu_init (Func f)) (fun mu => calculate round5 (fun a b => Ok (d a b)) mu r) = Err AttributeError.
Proof. cbn [mu_init bind]. unfold calculate. rewrite distances_ok. reflexivity. Qed.

(* --- order of the entries --- *)
Lemma side_perm pick r r' : c_grand r = c_grand r' -> Permutation (c_entries r) (c_entries r') -> Permutation (side pick r) (side pick r').
Proof. intros G P. unfold side. rewrite G. apply Permutation_map. apply filter_perm. exact P. Qed.

Lemma product_perm (d : nat -> nat -> Q) a a' b b' : Permutation a a' -> Permutation b b' ->
  Permutation (map (fun p => d (fst p) (snd p)) (pairs_product a b)) (map (fun p => d (fst p) (snd p)) (pairs_product a' b')).
Proof.
  intros Ha Hb. apply Permutation_map. unfold pairs_product. eapply perm_trans; [apply Permutation_flat_map; exact Ha|].
  clear a Ha. induction a' as [|x l IH]; cbn; [constructor|]. apply Permutation_app; [apply Permutation_map; exact Hb|exact IH].
Qed.
Lemma pairs_perm (d : nat -> nat -> Q) : (forall a b, d a b = d b a) -> forall l l', Permutation l l' ->
  Permutation (map (fun p => d (fst p) (snd p)) (pairs_of l)) (map (fun p => d (fst p) (snd p)) (pairs_of l')).
Proof.
  intros S l l' H. induction H as [|x l l' H IH|x y l|l l' l'' H1 IH1 H2 IH2]; cbn.
  - constructor.
  - rewrite !map_app. apply Permutation_app; [|exact IH]. apply Permutation_map. apply Permutation_map. exact H.
  - rewrite !map_app, !map_map. cbn [fst snd]. rewrite (S y x). constructor. rewrite !app_assoc. apply Permutation_app_tail. apply Permutation_app_comm.
  - eapply perm_trans; eassumption.
Qed.
Lemma all_pairs_perm (d : nat -> nat -> Q) r r' : (forall a b, d a b = d b a) -> c_grand r = c_grand r' -> Permutation (c_entries r) (c_entries r') ->
  Permutation (map (fun p => d (fst p) (snd p)) (all_pairs r)) (map (fun p => d (fst p) (snd p)) (all_pairs r')).
Proof.
  intros S G P. unfold all_pairs. rewrite !map_app. apply Permutation_app.
  - apply product_perm; apply side_perm; assumption.
  - apply pairs_perm; [exact S|]. apply side_perm; assumption.
Qed.
Lemma Qsum_permutation l l' : Permutation l l' -> (Qsum l == Qsum l')%Q.
Proof. induction 1; cbn; [reflexivity|rewrite IHPermutation; reflexivity|lra|etransitivity; eassumption]. Qed.

Lemma order_free round5 d name r r' : (forall a b, d a b = d b a) -> c_grand r = c_grand r' -> Permutation (c_entries r) (c_entries r') ->
  let calc x := bind (mu_init (Name name)) (fun mu => calculate round5 (fun a b => Ok (d a b)) mu x) in
  (exists e, calc r = Err e /\ calc r' = Err e) \/ (calc r = Ok None /\ calc r' = Ok None)
  \/ exists v v', calc r = Ok (Some (round5 v)) /\ calc r' = Ok (Some (round5 v')) /\ (v == v')%Q.
Proof.
  intros S G P. cbv zeta. pose proof (all_pairs_perm d r r' S G P) as H.
  unfold calculate. fold (all_pairs r) (all_pairs r'). rewrite !distances_ok. cbn [bind].
  set (a := map _ (all_pairs r)) in *. set (b := map _ (all_pairs r')) in *.
  destruct (mu_init (Name name)) as [mu|e] eqn:E; [|left; exists e; split; reflexivity]. cbn [bind].
  unfold mu_init in E. destruct (String.eqb name "max") eqn:E1; [|destruct (String.eqb name "mean") eqn:E2; [|destruct (String.eqb name "sum") eqn:E3; [|discriminate]]]; injection E as <-.
  - destruct a as [|x a]. { apply Permutation_nil in H. rewrite H. left. exists ValueError. split; reflexivity. }
    destruct b as [|y b]. { apply Permutation_sym, Permutation_nil in H. discriminate. }
    right. right. destruct (arr_max_spec (x :: a)) as (m & Em & Hm & Gm); [discriminate|]. destruct (arr_max_spec (y :: b)) as (m' & Em' & Hm' & Gm'); [discriminate|].
    exists m, m'. unfold agg_max. rewrite Em, Em'. split; [reflexivity|]. split; [reflexivity|]. apply Qle_antisym.
    + apply Gm'. apply (Permutation_in _ H). exact Hm.
    + apply Gm. apply (Permutation_in _ (Permutation_sym H)). exact Hm'.
  - destruct a as [|x a]. { apply Permutation_nil in H. rewrite H. right. left. split; reflexivity. }
    destruct b as [|y b]. { apply Permutation_sym, Permutation_nil in H. discriminate. }
    right. right. do 2 eexists. split; [reflexivity|]. split; [reflexivity|]. rewrite (Permutation_length H), (Qsum_permutation _ _ H). apply Qeq_refl.
  - right. right. do 2 eexists. split; [reflexivity|]. split; [reflexivity|]. apply Qsum_permutation. exact H.
Qed.

(* --- distances between sets of points --- *)
Lemma shortest_spec {P} (dist : P -> P -> Q) a b offset : a <> [] -> b <> [] ->
  exists v, shortest dist a b offset = Ok (v + offset)%Q /\ least_distance dist a b v.
Proof.
  intros Ha Hb. unfold shortest.
  set (near := fun p => match arr_min (map (fun q => dist q p) a) with Ok m => m | Err _ => 0%Q end).
  assert (N : forall p, arr_min (map (fun q => dist q p) a) = Ok (near p) /\ In (near p) (map (fun q => dist q p) a) /\ forall e, In e (map (fun q => dist q p) a) -> (near p <= e)%Q).
  { intros p. destruct (arr_min_spec (map (fun q => dist q p) a)) as (m & E & H); [destruct a; [congruence|discriminate]|]. unfold near. rewrite E. split; [reflexivity|exact H]. }
  rewrite (mapM_ok _ near) by (intros p _; apply N). cbn [bind].
  destruct (arr_min_spec (map near b)) as (m & -> & Hm & Hmin); [destruct b; [congruence|discriminate]|]. exists m. split; [reflexivity|]. split.
  - apply in_map_iff in Hm as (q & <- & Hq). destruct (N q) as (_ & Hi & _). apply in_map_iff in Hi as (p & E & Hp). exists p, q. split; [exact Hp|]. split; [exact Hq|]. symmetry. exact E.
  - intros p q Hp Hq. eapply Qle_trans; [apply Hmin; apply in_map; exact Hq|]. apply N. apply in_map_iff. exists p. split; [reflexivity|exact Hp].
Qed.
Lemma shortest_sym {P} (dist : P -> P -> Q) a b offset : (forall p q, (dist p q == dist q p)%Q) -> a <> [] -> b <> [] ->
  exists v v', shortest dist a b offset = Ok v /\ shortest dist b a offset = Ok v' /\ (v == v')%Q.
Proof.
  intros S Ha Hb. destruct (shortest_spec dist a b offset Ha Hb) as (v & E & (p & q & Hp & Hq & Ev) & L). destruct (shortest_spec dist b a offset Hb Ha) as (v' & E' & (p' & q' & Hp' & Hq' & Ev') & L').
  exists (v + offset)%Q, (v' + offset)%Q. split; [exact E|]. split; [exact E'|].
  assert (v == v')%Q; [|lra]. apply Qle_antisym.
  - rewrite Ev', S. apply L; assumption.
  - rewrite Ev, S. apply L'; assumption.
Qed.

(* --- metastable domains --- *)
Lemma add_remove e l : ~ In e l -> set_remove e (set_add e l) = Ok l.
Proof.
  intros H. unfold set_add, set_remove, mem. destruct (memb Nat.eqb e l) eqn:E; [apply memb_iff in E; contradiction|].
  assert (M : memb Nat.eqb e (l ++ [e]) = true) by (apply memb_iff; apply in_or_app; right; left; reflexivity). rewrite M. f_equal.
  unfold set_discard. rewrite filter_app. cbn. rewrite Nat.eqb_refl. cbn. rewrite app_nil_r. apply filter_all. intros x Hx. apply negb_true_iff, Nat.eqb_neq. congruence.
Qed.
Lemma add_remove_in e l : In e l -> set_remove e (set_add e l) = Ok (set_discard e l).
Proof.
  intros H. apply memb_iff in H. unfold set_add, set_remove, mem. rewrite H. rewrite H. reflexivity.
Qed.

Section Meta.
Context {P : Type}.
Variable ground : list nat -> nat -> result nat.
Variable stabilized : list nat -> nat -> bool -> result nat.
Variable domain_in : list nat -> nat -> option (list P).
Notation meta := (metastable ground stabilized domain_in).

Lemma meta_spec f c : (forall e b x, ground (c_set c) f = Ok e -> stabilized (c_set c) e b = Ok x -> ~ In x (c_set c)) ->
  (forall d, snd (meta f c) = Ok d -> c_set (fst (meta f c)) = c_set c /\ dict_get f (c_cache (fst (meta f c))) = Some d
     /\ meta f (fst (meta f c)) = (fst (meta f c), Ok d)
     /\ forall g, g <> f -> dict_get g (c_cache (fst (meta f c))) = dict_get g (c_cache c)).
Proof.
  intros Hn d. set (goal := fun res : cpd * result (list P) => snd res = Ok d -> c_set (fst res) = c_set c /\ dict_get f (c_cache (fst res)) = Some d
     /\ meta f (fst res) = (fst res, Ok d) /\ forall g, g <> f -> dict_get g (c_cache (fst res)) = dict_get g (c_cache c)).
  change (goal (meta f c)). unfold metastable. destruct (dict_get f (c_cache c)) as [d0|] eqn:Ec.
  { intros E. cbn [snd] in E. injection E as ->. cbn [fst]. split; [reflexivity|]. split; [exact Ec|]. split; [unfold metastable; rewrite Ec; reflexivity|]. reflexivity. }
  assert (fin : forall x d', ~ In x (c_set c) -> goal (store f d' (set_add x (c_set c)) x c)).
  { intros x d' Hx. unfold goal, store. rewrite add_remove by exact Hx. cbn [fst snd c_set c_cache]. intros E. injection E as ->.
    assert (G : dict_get f (dict_set f d (c_cache c)) = Some d) by (rewrite dict_get_set, Nat.eqb_refl; reflexivity).
    split; [reflexivity|]. split; [exact G|]. split.
    - unfold metastable. cbn [c_cache]. rewrite G. reflexivity.
    - intros g Hg. rewrite dict_get_set. destruct (Nat.eqb g f) eqn:E; [apply Nat.eqb_eq in E; contradiction|]. reflexivity. }
  destruct (ground (c_set c) f) as [o|] eqn:Eg; [|discriminate]. destruct (stabilized (c_set c) o false) as [x|] eqn:Es; [|discriminate]. cbv zeta.
  pose proof (Hn o false x eq_refl Es) as Hx.
  destruct (domain_in (set_add x (c_set c)) f) as [d'|]; [exact (fin x d' Hx)|].
  rewrite add_remove by exact Hx. destruct (stabilized (c_set c) o true) as [y|] eqn:Et; [|discriminate].
  pose proof (Hn o true y eq_refl Et) as Hy.
  destruct (domain_in (set_add y (c_set c)) f) as [d'|]; [exact (fin y d' Hy)|discriminate].
Qed.

(* An entry that is already on the hull is lost, if the forced entry is a new one. *)
Lemma meta_loses f c o d : dict_get f (c_cache c) = None -> ground (c_set c) f = Ok o -> In o (c_set c) -> stabilized (c_set c) o false = Ok o ->
  (forall x, stabilized (set_discard o (c_set c)) o true = Ok x -> ~ In x (set_discard o (c_set c))) ->
  snd (meta f c) = Ok d -> ~ In o (c_set (fst (meta f c))).
Proof.
  intros Ec Eg Ho Es Hn. unfold metastable. rewrite Ec, Eg, Es. cbv zeta.
  assert (out : ~ In o (set_discard o (c_set c))).
  { unfold set_discard. rewrite filter_In. intros [_ H]. rewrite Nat.eqb_refl in H. discriminate. }
  destruct (domain_in (set_add o (c_set c)) f) as [d'|].
  - unfold store. rewrite add_remove_in by exact Ho. cbn [fst snd c_set]. intros _. exact out.
  - rewrite add_remove_in by exact Ho. destruct (stabilized (set_discard o (c_set c)) o true) as [y|] eqn:Et; [|discriminate].
    destruct (domain_in _ f) as [d'|]; [|discriminate]. unfold store. rewrite add_remove by (apply Hn; reflexivity). cbn [fst snd c_set]. intros _. exact out.
Qed.

(* A domain that has been found stays. *)
Variable domains : nat -> option (list P).
Variable dist : P -> P -> Q.
Notation dom := (domain_of domains ground stabilized domain_in).
Notation distance := (shortest_domain_distance dist domains ground stabilized domain_in).

Lemma meta_cache f c : (forall d, snd (meta f c) = Ok d -> dict_get f (c_cache (fst (meta f c))) = Some d)
  /\ (forall g d, dict_get g (c_cache c) = Some d -> dict_get g (c_cache (fst (meta f c))) = Some d).
Proof.
  set (goal := fun res : cpd * result (list P) => (forall d, snd res = Ok d -> dict_get f (c_cache (fst res)) = Some d)
     /\ (forall g d, dict_get g (c_cache c) = Some d -> dict_get g (c_cache (fst res)) = Some d)).
  change (goal (meta f c)). unfold metastable. destruct (dict_get f (c_cache c)) as [d0|] eqn:Ec.
  { split; cbn [fst snd]; [intros d E; injection E as <-; exact Ec|tauto]. }
  assert (same : forall c0 e, c_cache c0 = c_cache c -> goal (c0, Err e)) by (intros c0 e H; split; cbn [fst snd]; [discriminate|rewrite H; tauto]).
  assert (fin : forall set x d', goal (store f d' set x c)).
  { intros set x d'. unfold goal, store.
    assert (G : forall g d, dict_get g (c_cache c) = Some d -> dict_get g (dict_set f d' (c_cache c)) = Some d).
    { intros g d H. rewrite dict_get_set. destruct (Nat.eqb g f) eqn:E; [apply Nat.eqb_eq in E; congruence|exact H]. }
    destruct (set_remove x set); cbn [fst snd c_cache]; (split; [|exact G]); [|discriminate]. intros d E. injection E as <-. rewrite dict_get_set, Nat.eqb_refl. reflexivity. }
  destruct (ground (c_set c) f) as [o|]; [|apply same; reflexivity]. destruct (stabilized (c_set c) o false) as [x|]; [|apply same; reflexivity]. cbv zeta.
  destruct (domain_in _ f); [apply fin|]. destruct (set_remove _ _) as [s2|]; [|apply same; reflexivity].
  destruct (stabilized s2 o true) as [y|]; [|apply same; reflexivity]. destruct (domain_in _ f); [apply fin|apply same; reflexivity].
Qed.
Lemma domain_kept f c d : snd (dom f c) = Ok d -> dom f (fst (dom f c)) = (fst (dom f c), Ok d).
Proof.
  unfold domain_of. destruct (domains f) as [d0|]; cbn [fst snd]; [intros E; rewrite E; reflexivity|]. intros E. apply (proj1 (meta_cache f c)) in E. unfold metastable at 1. rewrite E. reflexivity.
Qed.
Lemma domain_other f g c d : dom g c = (c, Ok d) -> dom g (fst (dom f c)) = (fst (dom f c), Ok d).
Proof.
  unfold domain_of. destruct (domains g) as [d0|]; [intros E; injection E as ->; reflexivity|]. intros E.
  assert (Hg : dict_get g (c_cache c) = Some d) by (pose proof (proj1 (meta_cache g c) d) as H; rewrite E in H; apply H; reflexivity).
  assert (G : dict_get g (c_cache (fst (match domains f with Some d0 => (c, Ok d0) | None => meta f c end))) = Some d) by (destruct (domains f); [exact Hg|apply (proj2 (meta_cache f c)); exact Hg]).
  unfold metastable at 1. rewrite G. reflexivity.
Qed.
Lemma distance_again f1 f2 off off' c c' v : (forall p q, (dist p q == dist q p)%Q) -> distance f1 f2 off c = (c', Ok v) ->
  exists w, (v == w + off)%Q
  /\ (exists v', distance f1 f2 off' c' = (c', Ok v') /\ (v' == w + off')%Q)
  /\ (exists v', distance f2 f1 off' c' = (c', Ok v') /\ (v' == w + off')%Q).
Proof.
  intros Sy H. unfold shortest_domain_distance in H. destruct (dom f1 c) as [c1 [p1|e]] eqn:E1; [|discriminate].
  destruct (dom f2 c1) as [c2 r2] eqn:E2. injection H as <- H. destruct r2 as [p2|e]; [|discriminate]. cbn [bind] in H.
  pose proof (domain_kept f1 c p1) as K1. rewrite E1 in K1. specialize (K1 eq_refl). cbn [fst] in K1.
  pose proof (domain_other f2 f1 c1 p1 K1) as K2. rewrite E2 in K2. cbn [fst] in K2.
  pose proof (domain_kept f2 c1 p2) as K3. rewrite E2 in K3. specialize (K3 eq_refl). cbn [fst] in K3.
  assert (N1 : p1 <> []) by (intros N; rewrite N in H; destruct p2; cbn in H; discriminate). assert (N2 : p2 <> []) by (intros N; rewrite N in H; cbn in H; discriminate).
  destruct (shortest_spec dist p1 p2 off N1 N2) as (w & W & L). assert (v = (w + off)%Q) by congruence. subst v.
  exists w. split; [reflexivity|]. unfold shortest_domain_distance. rewrite K2, K3, K2. cbn [bind]. split.
  - destruct (shortest_spec dist p1 p2 off' N1 N2) as (w' & W' & L'). exists (w' + off')%Q. split; [rewrite W'; reflexivity|].
    destruct L as [(x & y & X & Y & ->) L], L' as [(x' & y' & X' & Y' & ->) L']. specialize (L x' y' X' Y'). specialize (L' x y X Y). lra.
  - destruct (shortest_spec dist p2 p1 off' N2 N1) as (w' & W' & L'). exists (w' + off')%Q. split; [rewrite W'; reflexivity|].
    destruct L as [(x & y & X & Y & ->) L], L' as [(x' & y' & X' & Y' & ->) L']. specialize (L y' x' Y' X'). specialize (L' y x Y X). pose proof (Sy x y). pose proof (Sy x' y'). lra.
Qed.
End Meta.

(* --- the chempot distance job --- *)
Lemma subset_incl a b : subset a b = true <-> incl a b.
Proof. unfold subset. rewrite forallb_forall. split; intros H x Hx; [apply memb_iff|apply memb_iff]; apply H; exact Hx. Qed.

Lemma use_systems_spec system rxns : forall systems,
  map fst (use_systems system systems rxns) = rxns
  /\ forall r k, In (r, k) (use_systems system systems rxns) -> incl (system r) k /\ (In k systems \/ exists r', In r' rxns /\ k = system r').
Proof.
  induction rxns as [|r rest IH]; intros systems; cbn [use_systems]; [split; [reflexivity|intros r k []]|].
  destruct (find (fun c => subset (system r) c) systems) as [c|] eqn:E.
  - destruct (IH systems) as [I1 I2]. cbn [map fst]. split; [f_equal; exact I1|]. apply find_some in E as [Hc Hs]. intros r0 k [H|H].
    + injection H as <- <-. split; [apply subset_incl; exact Hs|left; exact Hc].
    + destruct (I2 r0 k H) as [A [B|(r' & B & B')]]; (split; [exact A|]); [left; exact B|right; exists r'; split; [right; exact B|exact B']].
  - destruct (IH (systems ++ [system r])) as [I1 I2]. cbn [map fst]. split; [f_equal; exact I1|]. intros r0 k [H|H].
    + injection H as <- <-. split; [apply incl_refl|]. right. exists r. split; [left; reflexivity|reflexivity].
    + destruct (I2 r0 k H) as [A [B|(r' & B & B')]]; (split; [exact A|]).
      * apply in_app_iff in B as [B|[<-|[]]]; [left; exact B|right; exists r; split; [left; reflexivity|reflexivity]].
      * right. exists r'. split; [right; exact B|exact B'].
Qed.
Lemma chunks_once system gs : exists vs, mapM (fun c => Ok (chempot_chunk system c)) gs = Ok vs
  /\ Permutation (map fst (concat vs)) (flat_map opt_list (concat gs))
  /\ forall r k, In (r, k) (concat vs) -> incl (system r) k /\ exists r', In r' (flat_map opt_list (concat gs)) /\ k = system r'.
Proof.
  exists (map (chempot_chunk system) gs). split; [apply mapM_ok; reflexivity|].
  induction gs as [|g gs [I1 I2]]; cbn [map concat]; [split; [constructor|intros r k []]|]. rewrite map_app, flat_map_app.
  set (todo := sort_desc (fun r => length (system r)) (flat_map opt_list g)).
  assert (E : chempot_chunk system g = use_systems system [] todo) by reflexivity.
  destruct (use_systems_spec system todo []) as [U1 U2]. pose proof (sort_desc_perm (fun r => length (system r)) (flat_map opt_list g)) as Ps. fold todo in Ps.
  split.
  - apply Permutation_app; [|exact I1]. rewrite E, U1. exact Ps.
  - intros r k H. apply in_app_iff in H as [H|H].
    + rewrite E in H. destruct (U2 r k H) as [A [[]|(r' & B & B')]]. split; [exact A|]. exists r'. split; [|exact B']. apply in_or_app. left. apply (Permutation_in _ Ps). exact B.
    + destruct (I2 r k H) as [A (r' & B & B')]. split; [exact A|]. exists r'. split; [apply in_or_app; right; exact B|exact B'].
Qed.

Lemma chempot_job_spec system wait by_system n rxns : valid_schedule wait -> 1 <= n -> Permutation (by_system rxns) rxns ->
  exists out, chempot_job system wait by_system n rxns = Ok out /\ Permutation (map fst out) rxns
  /\ forall r k, In (r, k) out -> incl (system r) k /\ (exists r', In r' rxns /\ k = system r')
     /\ ((forall r', In r' rxns -> incl (system r) (system r') -> incl (system r') (system r)) -> incl k (system r)).
Proof.
  intros Hw Hn Hp. unfold chempot_job. destruct (grouper_spec (map Some (by_system rxns)) n None Hn) as (gs & m & -> & Hg & _). cbn [bind].
  destruct (chunks_once system gs) as (vs & Ev & P1 & P2). rewrite Hg, opts_some in P1, P2.
  destruct (gather_ok wait _ _ _ Hw Ev) as (out & -> & Po). cbn [bind]. exists (concat out). split; [reflexivity|].
  pose proof (Permutation_concat _ _ Po) as Pc. split.
  - eapply perm_trans; [apply Permutation_map; exact Pc|]. eapply perm_trans; [exact P1|exact Hp].
  - intros r k H. apply (Permutation_in _ Pc) in H. destruct (P2 r k H) as [A (r' & B & ->)]. apply (Permutation_in _ Hp) in B.
    split; [exact A|]. split; [exists r'; split; [exact B|reflexivity]|]. intros M. apply M; assumption.
Qed.
