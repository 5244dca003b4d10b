(* The whole flow with reactions between intermediates. *)
From Coq Require Import Lqa.
From Verif Require Import Prelude NumQ SumQ ListFacts UtilsModel UtilsSpec ReactionModel ReactionSpec ReactionBaseProofs RxnSetModel RxnSetSpec PathModel PathSpec SolverModel SolverSpec
  NetModel YenModel YenSpec FlowModel NetJobModel NetJobSpec SolveJobModel SolveJobSpec SolveJobProofs EnumModel EnumSpec EnumLinkModel LinModel LinSpec LinProofs LinBalanceProofs PinvModel PinvProofs CapSpec CapProofs
  RunModel ChainModel ChainSpec ChainProofs ChainFindSpec ChainFindProofs JoinModel JoinSpec JoinProofs WholeModel WholeProofs IntModel IntSpec CoefProofs IntProofs IntFlowSpec.
Open Scope nat_scope.

Section Relabel.
Variable C : chem.
Variable ent : nat -> entry.
Hypothesis Hid : forall i, e_id (ent i) = i.
Variable listed : list nat -> list nat.
Variable us : list nat.
Hypothesis Nl : NoDup (listed us).
Notation lus := (listed us).
Notation pool := (numbered (fun i => e_comp (ent i)) (fun i => e_energy (ent i)) listed us).
Notation entry0 := (entry_of (fun i => e_comp (ent i)) (fun i => e_energy (ent i)) listed us).
Notation obj := (rxn_of C (fun i => e_comp (ent i)) (fun i => e_energy (ent i)) listed us).
Notation here := (in_set C ent).
Notation here' := (in_set C (with_index pool)).
Notation form0 := (fun i => red C (e_comp (ent i))).
Definition nm (i : nat) : nat := nth i (listed us) 0.

Lemma nm_some i u : nth_error lus i = Some u -> nm i = u.
Proof. intros E. apply nth_error_nth. exact E. Qed.
Lemma nm_in i : i < length lus -> nth_error lus i = Some (nm i).
Proof. intros H. destruct (nth_error lus i) as [u|] eqn:E; [rewrite (nm_some i u E); reflexivity|]. apply nth_error_None in E. lia. Qed.
Lemma nm_position u : In u lus -> nm (position u lus) = u.
Proof. intros I. apply nm_some, position_nth. exact I. Qed.
Lemma position_nm i : i < length lus -> position (nm i) lus = i.
Proof. intros H. apply nth_position; [exact Nl|]. apply nm_in. exact H. Qed.
Lemma position_lt u : In u lus -> position u lus < length lus.
Proof. intros I. apply nth_error_Some. rewrite (position_nth u lus I). discriminate. Qed.
Lemma nm_inj i j : i < length lus -> j < length lus -> nm i = nm j -> i = j.
Proof. intros Hi Hj E. rewrite <- (position_nm i Hi), <- (position_nm j Hj), E. reflexivity. Qed.
Lemma nm_mem i : i < length lus -> In (nm i) lus.
Proof. intros H. exact (nth_error_In _ _ (nm_in i H)). Qed.
Lemma pool_nth i : nth_error pool i = option_map entry0 (nth_error lus i).
Proof. unfold numbered. apply nth_error_map. Qed.
Lemma pool_some i e : nth_error pool i = Some e -> i < length lus /\ e = entry0 (nm i).
Proof.
  rewrite pool_nth. destruct (nth_error lus i) as [u|] eqn:E; intros H; [|discriminate]. cbn in H. injection H as <-. split; [apply nth_error_Some; rewrite E; discriminate|]. rewrite (nm_some i u E). reflexivity.
Qed.
Lemma pool_in i : i < length lus -> nth_error pool i = Some (entry0 (nm i)).
Proof. intros H. rewrite pool_nth, (nm_in i H). reflexivity. Qed.
Lemma pool_at i : i < length lus -> with_index pool i = entry0 (nm i).
Proof. intros H. unfold with_index. apply nth_error_nth, pool_in. exact H. Qed.
Lemma pool_id i e : nth_error pool i = Some e -> e_id e = i.
Proof. intros H. apply pool_some in H as (L & ->). cbn. apply position_nm. exact L. Qed.

Definition relabel (x : srxn) : srxn :=
  {| x_entries := map (fun e => here (nm (uid e))) (x_entries x); x_coeffs := x_coeffs x; x_data := x_data x; x_mu := None |}.
Definition inside (l : list nat) : Prop := forall i, In i l -> i < length lus.

Lemma relabel_entries x l : x_entries x = map here' l -> x_entries (relabel x) = map here (map nm l).
Proof. intros E. cbn [relabel x_entries]. rewrite E, !map_map. reflexivity. Qed.
Lemma map_nm_nodup l : inside l -> NoDup l -> NoDup (map nm l).
Proof.
  intros H N. induction N as [|i l Hi N IH]; cbn [map]; constructor.
  - intros I. apply in_map_iff in I as (j & E & J). apply Hi. rewrite <- (nm_inj j i (H j (or_intror J)) (H i (or_introl eq_refl)) E). exact J.
  - apply IH. intros j J. apply H. right. exact J.
Qed.
Lemma map_nm_position l : (forall u, In u l -> In u lus) -> map nm (map (fun u => position u lus) l) = l.
Proof. intros H. rewrite map_map. rewrite <- (map_id l) at 2. apply map_ext_in. intros u I. apply nm_position, H. exact I. Qed.
Lemma in_map_nm i l : inside l -> i < length lus -> (In (nm i) (map nm l) <-> In i l).
Proof.
  intros H Hi. split; [|apply in_map]. intros I. apply in_map_iff in I as (j & E & J). rewrite <- (nm_inj j i (H j J) Hi E). exact J.
Qed.

Lemma relabel_object x l : x_entries x = map here' l -> inside l -> obj (relabel x) = RComputed (object_of C pool x).
Proof.
  intros E H. unfold rxn_of, relabel, object_of. cbn [x_mu x_entries x_coeffs]. rewrite E, !map_map. cbn [uid in_set]. do 2 f_equal. apply map_ext_in. intros i I. symmetry. apply pool_at, H. exact I.
Qed.
Lemma relabel_plain x l : x_entries x = map here' l -> inside l -> plain x -> plain (relabel x).
Proof.
  intros E H (N & L & Z). split; [|split; [cbn [relabel x_coeffs x_entries]; rewrite map_length; exact L|exact Z]]. rewrite (relabel_entries x l E). apply nodup_here, map_nm_nodup; [exact H|]. rewrite E in N. exact (NoDup_map_inv _ _ N).
Qed.
Lemma relabel_takes x l i c : x_entries x = map here' l -> inside l -> i < length lus -> (takes_part (relabel x) (here (nm i)) c <-> takes_part x (here' i) c).
Proof.
  intros E H Hi. unfold takes_part. rewrite (relabel_entries x l E), E. cbn [relabel x_coeffs]. generalize (x_coeffs x) as v. revert H. clear E. induction l as [|j l IH]; intros H v; [reflexivity|]. destruct v as [|k v]; [reflexivity|]. cbn [map combine In].
  rewrite IH by (intros a A; apply H; right; exact A). split; (intros [G|G]; [left|right; exact G]).
  - injection G as G1 G2. subst k. rewrite (nm_inj j i (H j (or_introl eq_refl)) Hi G1). reflexivity.
  - injection G as G1 G2. subst k j. reflexivity.
Qed.
Lemma relabel_takes_inv x l e c : x_entries x = map here' l -> takes_part (relabel x) e c -> exists i, In i l /\ e = here (nm i).
Proof. intros E T. apply in_combine_l in T. rewrite (relabel_entries x l E), map_map in T. apply in_map_iff in T as (i & <- & I). exists i. split; [exact I|reflexivity]. Qed.
Lemma takes_inv x l e c : x_entries x = map here' l -> takes_part x e c -> exists i, In i l /\ e = here' i.
Proof. intros E T. apply in_combine_l in T. rewrite E in T. apply in_map_iff in T as (i & <- & I). exists i. split; [exact I|reflexivity]. Qed.

Lemma relabel_turns x l r p : x_entries x = map here' l -> inside l -> inside r -> inside p -> turns C (with_index pool) r p x -> turns C ent (map nm r) (map nm p) (relabel x).
Proof.
  intros E H Hr Hp (U & M & B & Net). split; [|split; [|split]].
  - intros e. split.
    + intros (c & T & Hc). destruct (relabel_takes_inv x l e c E T) as (i & I & ->). apply (relabel_takes x l i c E H (H i I)) in T. destruct (proj1 (U (here' i)) (ex_intro _ c (conj T Hc))) as (j & J & Ej). injection Ej as <-. exists (nm i). split; [apply in_map; exact J|reflexivity].
    + intros (u & I & ->). apply in_map_iff in I as (i & <- & I). destruct (proj2 (U (here' i)) (ex_intro _ i (conj I eq_refl))) as (c & T & Hc). exists c. split; [apply (relabel_takes x l i c E H (Hr i I)); exact T|exact Hc].
  - intros e. split.
    + intros (c & T & Hc). destruct (relabel_takes_inv x l e c E T) as (i & I & ->). apply (relabel_takes x l i c E H (H i I)) in T. destruct (proj1 (M (here' i)) (ex_intro _ c (conj T Hc))) as (j & J & Ej). injection Ej as <-. exists (nm i). split; [apply in_map; exact J|reflexivity].
    + intros (u & I & ->). apply in_map_iff in I as (i & <- & I). destruct (proj2 (M (here' i)) (ex_intro _ i (conj I eq_refl))) as (c & T & Hc). exists c. split; [apply (relabel_takes x l i c E H (Hp i I)); exact T|exact Hc].
  - intros e c T. destruct (relabel_takes_inv x l e c E T) as (i & I & ->). apply (relabel_takes x l i c E H (H i I)) in T. exact (B _ c T).
  - intros el. specialize (Net el). assert (Eq : (sumQ (fun ec => amt C (form (fst ec)) el * snd ec) (combine (x_entries (relabel x)) (x_coeffs (relabel x))) == sumQ (fun ec => amt C (form (fst ec)) el * snd ec) (combine (x_entries x) (x_coeffs x)))%Q); [|rewrite Eq; exact Net].
    rewrite (relabel_entries x l E), E. cbn [relabel x_coeffs]. rewrite map_map, !combine_map_l, !sumQ_map. apply sumQ_ext. intros [i k] I. cbn [fst snd form in_set]. rewrite (pool_at i (H i (in_combine_l _ _ _ _ I))). reflexivity.
Qed.
Lemma relabel_amount x l i : x_entries x = map here' l -> inside l -> i < length lus -> (amount (relabel x) (nm i) == amount x i)%Q.
Proof.
  intros E H Hi. unfold amount. rewrite (relabel_entries x l E), E. cbn [relabel x_coeffs]. rewrite map_map, !combine_map_l, !sumQ_map. apply sumQ_ext. intros [j k] I. cbn [fst snd uid in_set].
  destruct (Nat.eqb_spec j i) as [->|Ne]; [rewrite Nat.eqb_refl; reflexivity|]. destruct (Nat.eqb_spec (nm j) (nm i)) as [G|_]; [|reflexivity]. contradiction Ne. apply nm_inj; [exact (H j (in_combine_l _ _ _ _ I))|exact Hi|exact G].
Qed.

Lemma relabel_low l v cutoff : inside l -> (low C cutoff (combine (map (with_index pool) l) v) <-> low C cutoff (combine (map ent (map nm l)) v)).
Proof.
  intros H. assert (Eh : (heat C (combine (map (with_index pool) l) v) == heat C (combine (map ent (map nm l)) v))%Q).
  { unfold heat. rewrite map_map, !combine_map_l, !sumQ_map. apply sumQ_ext. intros [i k] I. cbn [fst snd]. rewrite (pool_at i (H i (in_combine_l _ _ _ _ I))). reflexivity. }
  assert (Ea : (atoms_made C (combine (map (with_index pool) l) v) == atoms_made C (combine (map ent (map nm l)) v))%Q).
  { unfold atoms_made. rewrite map_map, !combine_map_l, !sumQ_map. apply sumQ_ext. intros [i k] I. cbn [fst snd]. rewrite (pool_at i (H i (in_combine_l _ _ _ _ I))). reflexivity. }
  unfold low. rewrite Eh, Ea. reflexivity.
Qed.
Lemma relabel_forms l : inside l -> map (fun i => red C (e_comp (with_index pool i))) l = map form0 (map nm l).
Proof. intros H. rewrite map_map. apply map_ext_in. intros i I. rewrite (pool_at i (H i I)). reflexivity. Qed.
End Relabel.

Lemma nth_l {A B} (P : A -> B -> Prop) l m : Forall2 P l m -> forall j a, nth_error l j = Some a -> exists b, nth_error m j = Some b /\ P a b.
Proof. induction 1 as [|a b l m H _ IH]; intros [|j] c E; try discriminate; cbn in *; [injection E as <-; exists b; auto|exact (IH j c E)]. Qed.
Lemma nth_r {A B} (P : A -> B -> Prop) l m : Forall2 P l m -> forall j b, nth_error m j = Some b -> exists a, nth_error l j = Some a /\ P a b.
Proof. induction 1 as [|a b l m H _ IH]; intros [|j] c E; try discriminate; cbn in *; [injection E as <-; exists a; auto|exact (IH j c E)]. Qed.

(* The entries of a reaction that turns phases into phases *)
Lemma turns_entries C ent r p x e : plain x -> turns C ent r p x -> In e (x_entries x) -> exists i, e = in_set C ent i.
Proof.
  intros P (U & M & _) I. destruct (has_coeff x e P I) as (c & Ic & Nz). destruct (Q_dec c 0) as [[Hc|Hc]|Hc]; [| |contradiction].
  - destruct (proj1 (U e) (ex_intro _ c (conj Ic Hc))) as (i & _ & E). exists i. exact E.
  - destruct (proj1 (M e) (ex_intro _ c (conj Ic Hc))) as (i & _ & E). exists i. exact E.
Qed.
Lemma here_once C ent (l : list sentry) : (forall e, In e l -> exists i, e = in_set C ent i) -> forall a b, In a l -> In b l -> uid a = uid b -> a = b.
Proof. intros H a b Ia Ib E. destruct (H a Ia) as (i & ->), (H b Ib) as (j & ->). cbn in E. subst j. reflexivity. Qed.

Section Linked.
Variable C : chem.
Variable ent : nat -> entry.
Variable listed : list nat -> list nat.
Variable us ts ps : list nat.
Hypothesis Nl : NoDup (listed us).
Hypothesis Hl : forall u, In u (listed us) <-> In u us.
Notation lus := (listed us).
Notation pool := (numbered (fun i => e_comp (ent i)) (fun i => e_energy (ent i)) listed us).
Notation entry0 := (entry_of (fun i => e_comp (ent i)) (fun i => e_energy (ent i)) listed us).
Notation obj := (rxn_of C (fun i => e_comp (ent i)) (fun i => e_energy (ent i)) listed us).
Notation here := (in_set C ent).
Notation nm := (nm listed us).
Notation inside := (inside listed us).
Variable walked : srxn -> Prop.
Hypothesis Hplain : forall x, walked x -> plain x.
Hypothesis Hent : forall x e, walked x -> In e (x_entries x) -> exists u, In u us /\ e = here u.
Variable rxns : list rxn.
Hypothesis R1 : forall r, In r rxns -> exists x, walked x /\ r = obj x.
Hypothesis R2 : forall x, walked x -> exists x' x'', walked x'' /\ like x' x /\ In (obj x'') rxns /\ like x' x''.
Variable net0 : rxn.
Variable es : list entry.
Variable ks v : list Q.
Variable t : Q.
Hypothesis Std : Forall2 (stands_for lus) (map here (ps ++ ts)) es.
Hypothesis Sv : LinSpec.sides (length ps) v.
Hypothesis Lv : length v = length (ps ++ ts).
Hypothesis Pt : (0 < t)%Q.
Hypothesis Mv : multiple t v ks.
Hypothesis Pn : parts net0 = combine es ks.
Hypothesis Hts : ts <> [].
Hypothesis Cnet : exists c, net0 = RComputed c.
Hypothesis Hmu : forall x, walked x -> x_mu x = None.
Notation way := (on_the_way C ent lus ts walked).
Notation mid := (intermediate C pool rxns net0).

Lemma stands_all u : In u (ps ++ ts) -> exists e, In e es /\ nth_error lus (e_id e) = Some u /\ e_comp e = e_comp (ent u).
Proof. intros I. destruct (Forall2_In_l _ _ _ (here u) Std) as (e & Ie & (H1 & H2)); [apply in_map; exact I|]. exists e. auto. Qed.
Lemma target_iff i : target net0 i <-> exists u, nth_error lus i = Some u /\ In u ts.
Proof.
  unfold target. rewrite Pn. split.
  - intros (e & k & I & Hk & Ei). apply In_nth_error in I as (j & E). apply nth_combine in E as (Ee & Ek). destruct (nth_r _ _ _ Std j e Ee) as (h & Eh & Sh). rewrite nth_error_map in Eh. destruct (nth_error (ps ++ ts) j) as [u|] eqn:Eu; [|discriminate]. injection Eh as <-. destruct Sh as (Su & _).
    exists u. subst i. split; [exact Su|].
    destruct (nth_r _ _ _ Mv j k Ek) as (a & Ea & Ka). destruct (Nat.lt_ge_cases j (length ps)) as [L|G].
    + exfalso. pose proof (proj1 (Sv j a Ea) L) as Ha. rewrite Ka in Hk. assert (0 <= t * - a)%Q by (apply Qmult_le_0_compat; lra). lra.
    + rewrite nth_error_app2 in Eu by exact G. exact (nth_error_In _ _ Eu).
  - intros (u & Eu & It). apply In_nth_error in It as (j & Ej). assert (Ep : nth_error (ps ++ ts) (length ps + j) = Some u) by (rewrite nth_error_app2 by lia; rewrite Nat.add_comm, Nat.add_sub; exact Ej).
    destruct (nth_l _ _ _ Std (length ps + j) (here u)) as (e & Ee & (Se & _)); [rewrite nth_error_map, Ep; reflexivity|]. destruct (nth_error v (length ps + j)) as [a|] eqn:Ea; [|apply nth_error_None in Ea; assert (length ps + j < length (ps ++ ts)) by (apply nth_error_Some; rewrite Ep; discriminate); lia].
    pose proof (proj2 (Sv _ a Ea) ltac:(lia)) as Ha. destruct (nth_l _ _ _ Mv _ a Ea) as (k & Ek & Ka). exists e, k. split; [|split].
    + apply (nth_error_In _ (length ps + j)), nth_combine. auto.
    + rewrite Ka. apply Qmult_lt_0_compat; assumption.
    + apply (proj1 (NoDup_nth_error lus) Nl); [apply nth_error_Some; cbn in Se; rewrite Se; discriminate|]. cbn in Se. rewrite Se, Eu. reflexivity.
Qed.
Lemma walked_amount x u : walked x -> (~ (amount x u == 0)%Q <-> In (here u) (x_entries x)).
Proof.
  intros Wx. assert (Hh : forall e, In e (x_entries x) -> exists i, e = here i) by (intros e I; destruct (Hent x e Wx I) as (i & _ & E); exists i; exact E). split.
  - intros A. destruct (in_dec sentry_eq_dec (here u) (x_entries x)) as [I|N]; [exact I|]. exfalso. apply A, amount_none. intros e Ie E. destruct (Hh e Ie) as (i & ->). cbn in E. subst i. exact (N Ie).
  - intros I A. destruct (has_coeff x _ (Hplain x Wx) I) as (c & Ic & Nz). apply Nz. rewrite <- (amount_of x (here u) c (proj1 (Hplain x Wx)) (here_once C ent _ Hh) Ic). exact A.
Qed.
Lemma walked_parts x e k : In (e, k) (parts (obj x)) -> exists e0, In e0 (x_entries x) /\ e = entry0 (uid e0).
Proof. rewrite rxn_parts, combine_map_l. intros I. apply in_map_iff in I as ([e0 k0] & E & I). cbn [fst snd] in E. injection E as <- <-. exists e0. split; [exact (in_combine_l _ _ _ _ I)|reflexivity]. Qed.
Lemma parts_walked x e0 : length (x_coeffs x) = length (x_entries x) -> In e0 (x_entries x) -> exists k, In (entry0 (uid e0), k) (parts (obj x)).
Proof. intros L I. destruct (in_combined _ _ e0 L I) as (k & J). exists k. rewrite rxn_parts, combine_map_l. apply in_map_iff. exists (e0, k). auto. Qed.

Lemma way_in u : way u -> In u lus.
Proof.
  intros [(x & Wx & A)|[I|(I & _)]].
  - apply (walked_amount x u Wx) in A. destruct (Hent x _ Wx A) as (w & Iw & E). injection E as ->. apply Hl. exact Iw.
  - destruct (stands_all u) as (e & _ & E & _); [apply in_app_iff; right; exact I|]. exact (nth_error_In _ _ E).
  - exact I.
Qed.
Lemma mid_way i : mid i <-> i < length lus /\ way (nm i).
Proof.
  split.
  - intros [(r & e & k & Ir & Ie & Ei)|[T|(e & el & E & Eel)]].
    + destruct (R1 r Ir) as (x & Wx & ->). destruct (walked_parts x e k Ie) as (e0 & I0 & ->). destruct (Hent x e0 Wx I0) as (u & Iu & ->). cbn [e_id entry_of uid in_set] in Ei. subst i. apply Hl in Iu.
      split; [apply position_lt; exact Iu|]. rewrite (nm_position listed us u Iu). left. exists x. split; [exact Wx|]. apply (walked_amount x u Wx). exact I0.
    + apply target_iff in T as (u & Eu & Iu). split; [apply nth_error_Some; rewrite Eu; discriminate|]. rewrite (nm_some listed us i u Eu). right. left. exact Iu.
    + apply (pool_some ent listed us) in E as (L & ->). split; [exact L|]. right. right. split; [apply nm_mem; exact L|]. exists el. exact Eel.
  - intros (L & [(x & Wx & A)|[I|(I & el & Eel)]]).
    + left. destruct (R2 x Wx) as (x' & x'' & Wx'' & L1 & Ir & L2). assert (A' : ~ (amount x'' (nm i) == 0)%Q) by (rewrite <- (L2 (nm i)), (L1 (nm i)); exact A).
      apply (walked_amount x'' (nm i) Wx'') in A'. destruct (parts_walked x'' _ (proj1 (proj2 (Hplain x'' Wx''))) A') as (k & Ik). exists (obj x''), (entry0 (nm i)), k. split; [exact Ir|]. split; [exact Ik|]. cbn. apply position_nm; assumption.
    + right. left. apply target_iff. exists (nm i). split; [apply nm_in; exact L|exact I].
    + right. right. exists (entry0 (nm i)), el. split; [apply pool_in; exact L|exact Eel].
Qed.
Lemma mid_inside l : (forall i, In i l -> mid i) -> inside l.
Proof. intros H i I. apply mid_way, H; exact I. Qed.

Lemma net_names : names_entries pool net0.
Proof.
  split; [destruct Cnet as (c & ->); discriminate|]. intros e k I. rewrite Pn in I. apply in_combine_l in I. destruct (Forall2_In_r _ _ _ e Std I) as (h & Ih & (H1 & H2)). apply in_map_iff in Ih as (u & <- & _). cbn [uid in_set comp] in H1, H2.
  exists (entry0 u). split; [rewrite pool_nth, H1; reflexivity|]. cbn [e_comp entry_of]. symmetry. exact H2.
Qed.
Lemma obj_computed x : walked x -> exists c, obj x = RComputed c /\ length (coeffs (c_base c)) = length (c_entries c).
Proof. intros Wx. unfold rxn_of. rewrite (Hmu x Wx). eexists. split; [reflexivity|]. cbn. rewrite map_length. apply (Hplain x Wx). Qed.
Lemma rxn_names r : In r rxns -> names_entries pool r.
Proof.
  intros Ir. destruct (R1 r Ir) as (x & Wx & ->). split; [destruct (obj_computed x Wx) as (c & E & _); rewrite E; discriminate|]. intros e k I. destruct (walked_parts x e k I) as (e0 & I0 & ->). destruct (Hent x e0 Wx I0) as (u & Iu & ->). apply Hl in Iu.
  exists (entry0 u). split; [|reflexivity]. cbn [e_id entry_of uid in_set]. rewrite pool_nth, (position_nth u lus Iu). reflexivity.
Qed.
Lemma rxn_full r : In r rxns -> each_with_amount r.
Proof. intros Ir c Hc. destruct (R1 _ Ir) as (x & Wx & ->). destruct (obj_computed x Wx) as (c' & E' & L). rewrite E' in Hc. destruct Hc as [E|(? & E)]; [injection E as <-; exact L|discriminate]. Qed.
Lemma some_target : exists i, target net0 i.
Proof.
  assert (Hu : exists u, In u ts) by (clear -Hts; destruct ts as [|u l]; [contradiction|exists u; left; reflexivity]). destruct Hu as (u & Iu).
  destruct (stands_all u) as (e & _ & Ee & _); [apply in_app_iff; right; exact Iu|]. exists (e_id e). apply target_iff. exists u. auto.
Qed.
Lemma might_could r p : might_react C pool rxns net0 r p -> inside r /\ inside p /\ could_react C ent way ts (map nm r) (map nm p).
Proof.
  intros ((Nr & Lr) & (Np & Lp) & Di & Mi & (t0 & It & Tt) & els & Ne & Le & He).
  assert (Ir : inside r) by (intros i I; apply mid_way, Mi, in_app_iff; left; exact I). assert (Ip : inside p) by (intros i I; apply mid_way, Mi, in_app_iff; right; exact I).
  split; [exact Ir|]. split; [exact Ip|]. split; [split; [apply map_nm_nodup; assumption|rewrite map_length; exact Lr]|]. split; [split; [apply map_nm_nodup; assumption|rewrite map_length; exact Lp]|]. split; [|split; [|split]].
  - intros u I J. apply in_map_iff in I as (i & <- & I). apply (in_map_nm listed us Nl i p Ip (Ir i I)) in J. exact (Di i I J).
  - intros u I. rewrite <- map_app in I. apply in_map_iff in I as (i & <- & I). apply mid_way, Mi. exact I.
  - exists (nm t0). split; [apply in_map; exact It|]. apply target_iff in Tt as (u & Eu & Iu). rewrite (nm_some listed us t0 u Eu). exact Iu.
  - exists els. split; [exact Ne|]. split; [exact Le|]. intros el. rewrite He. split.
    + intros (i & e & I & E & Ie). apply (pool_some ent listed us) in E as (_ & ->). exists (nm i). split; [apply in_map; exact I|exact Ie].
    + intros (u & I & Ie). apply in_map_iff in I as (i & <- & I). exists i, (entry0 (nm i)). split; [exact I|]. split; [apply pool_in, Ir; exact I|exact Ie].
Qed.
Notation pos := (fun u => position u lus).
Lemma could_might r p : could_react C ent way ts r p -> (forall u, In u (r ++ p) -> In u lus) /\ might_react C pool rxns net0 (map pos r) (map pos p).
Proof.
  intros ((Nr & Lr) & (Np & Lp) & Di & Mi & (t0 & It & Tt) & els & Ne & Le & He). assert (In0 : forall u, In u (r ++ p) -> In u lus) by (intros u I; apply way_in, Mi; exact I).
  assert (Inr : forall u, In u r -> In u lus) by (intros u I; apply In0, in_app_iff; left; exact I). assert (Inp : forall u, In u p -> In u lus) by (intros u I; apply In0, in_app_iff; right; exact I).
  assert (Pn0 : forall l, NoDup l -> (forall u, In u l -> In u lus) -> NoDup (map pos l)).
  { intros l N H. apply NoDup_map_inv with (f := nm). rewrite map_nm_position by exact H. exact N. }
  split; [exact In0|]. split; [split; [apply Pn0; assumption|rewrite map_length; exact Lr]|]. split; [split; [apply Pn0; assumption|rewrite map_length; exact Lp]|]. split; [|split; [|split]].
  - intros i I J. apply in_map_iff in I as (u & <- & I). apply in_map_iff in J as (w & E & J). apply (Di u I). apply (f_equal nm) in E. rewrite !nm_position in E by auto. subst w. exact J.
  - intros i I. rewrite <- map_app in I. apply in_map_iff in I as (u & <- & I). apply mid_way. split; [apply position_lt, In0; exact I|]. rewrite nm_position by (apply In0; exact I). apply Mi. exact I.
  - exists (pos t0). split; [apply (in_map pos); exact It|]. apply target_iff. exists t0. split; [apply position_nth, Inp; exact It|exact Tt].
  - exists els. split; [exact Ne|]. split; [exact Le|]. intros el. rewrite He. split.
    + intros (u & I & Ie). exists (pos u), (entry0 u). split; [apply (in_map pos); exact I|]. split; [|exact Ie]. rewrite pool_nth, position_nth by (apply Inr; exact I). reflexivity.
    + intros (i & e & I & E & Ie). apply in_map_iff in I as (u & <- & I). rewrite pool_nth, position_nth in E by (apply Inr; exact I). injection E as <-. exists u. split; [exact I|exact Ie].
Qed.
End Linked.

Section Flow.
Variable C : chem.
Hypothesis W : wf_chem C.
Hypothesis Hbig : forall c e, In e (ReactionModel.elems C c) -> (1 # 100 < amt C (red C c) e)%Q.
Variable ent : nat -> entry.
Hypothesis Hid : forall i, e_id (ent i) = i.
Context {D : Type}.
Variable diagram : list nat -> D.
Variable wait : nat -> list (list (list (list nat * list nat) * D)) -> list (list (list (list nat * list nat) * D)) * list (list (list (list nat * list nat) * D)).
Hypothesis Hw : valid_schedule wait.
Variable entries : list nat.
Hypothesis Hn : NoDup entries.
Hypothesis Hne : entries <> [].
Hypothesis Hel : forall e, In e entries -> ReactionModel.elems C (e_comp (ent e)) <> [].
Variable arrange : list sentry -> list sentry.
Hypothesis Harr : arranges arrange.
Variable argsort : list Q -> list nat.
Hypothesis Harg : forall l, Permutation (argsort l) (seq 0 (length l)).
Variable shuffle : list nat -> list nat.
Hypothesis Hsh : forall l, Permutation (shuffle l) l.
Variable listed members : list nat -> list nat.
Hypothesis Hlisted : forall us, NoDup us -> Permutation (listed us) us.
Hypothesis Hmembers : forall us, Permutation (members us) (seq 0 (length us)).
Variable cpus : nat.
Hypothesis Hcpus : 2 <= cpus.
Variable nwait : nat -> list (nat * list (option (list nat)) * result (list nat)) ->
  list (nat * list (option (list nat)) * result (list nat)) * list (nat * list (option (list nat)) * result (list nat)).
Hypothesis Hnw : valid_schedule nwait.
Variable xcost : srxn -> Q.
Hypothesis Hcost : forall r, (0 <= xcost r)%Q.
Variable sp : (payload -> Q) -> list (nat * nat * payload) -> nat -> nat -> option (list nat).
Hypothesis Hsp : forall weight, shortest weight (sp weight).
Variable xeq : srxn -> srxn -> bool.
Hypothesis Hxeq : forall r, xeq r r = true.
Variable req : rxn -> rxn -> bool.
Variable waits1 waits2 : nat -> nat -> list nat -> list nat * list nat.
Variable uniq : list (path rxn) -> list (path rxn).
Variable clean : list rxn -> list rxn.
Variable cost : rxn -> Q.
Variable chunk : nat.
Hypothesis Hw1 : forall k, valid_schedule (waits1 k).
Hypothesis Hw2 : forall k, valid_schedule (waits2 k).
Variable rhash : rxn -> nat.
Hypothesis Hreq : forall r, req r r = true.
Hypothesis Huniq : set_members req rhash uniq.
Hypothesis Hnone : uniq [] = [].
Hypothesis Hclean : keeps_all req clean.
Hypothesis Hchunk : 1 <= chunk.
Variable order : list nat -> list nat.
Hypothesis Hord : forall l, Permutation (order l) l.
Variable ichunk ijobs : nat.
Hypothesis Hic : 1 <= ichunk.
Hypothesis Hij : 1 <= ijobs.
Variable cutoff : Q.
Notation solve := (entry_solve C ent).
Notation rank := (entry_rank C ent).
Notation here := (in_set C ent).
Notation form0 := (fun i => red C (e_comp (ent i))).
Notation inter0 := (find_intermediates C (exact_solve C) (exact_rank C) diagram arrange argsort shuffle wait order ichunk ijobs cutoff).
Notation epa0 := (fun u => e_energy (ent u) / natoms C (e_comp (ent u)))%Q.
Notation on_path rs per := (on_pathways xcost rs (concat per)).

Theorem flow_finds ens nmk smk max fi ps ts k : ens <> [] -> (forall en, In en ens -> usable en) ->
  (forall outs, Forall2 (fun en xs => enumerated C ent solve rank diagram wait entries en = Ok xs) ens outs -> sharp (map (set_rxn C) (concat outs))) -> incl (ps ++ ts) entries -> most_stable C ent epa0 entries (ps ++ ts) -> determined C form0 ps ts ->
  (forall i, In i (ps ++ ts) -> exists r p, reacts C ent entries ens r p /\ In i (r ++ p)) ->
  nm_precursors nmk = Some (map form0 ps) -> ps <> [] -> nm_targets nmk = Some (map form0 ts) -> ts <> [] -> nm_k nmk = Some k -> 0 < k -> nm_open nmk = None ->
  sm_precursors smk = map form0 ps -> sm_targets smk = map form0 ts -> sm_open smk = None ->
  exists us rs per net0 es ks v t, NoDup us /\ incl us entries
  /\ (forall x, In x rs -> plain x /\ exists en r p, In en ens /\ looks_at C ent entries en r p /\ turns C ent r p x)
  /\ (forall r p, reacts C ent entries ens r p -> exists x, In x rs /\ turns C ent r p x)
  /\ Forall2 (fun t pathways => pathways_to xcost rs (map here ps) (here t) k pathways) ts per
  /\ Forall2 (stands_for us) (map here (ps ++ ts)) es /\ only_combination C (map form0 (ps ++ ts)) v /\ (0 < t)%Q /\ multiple t v ks /\ parts net0 = combine es ks
  /\ exists (objects : srxn -> rxn) pool rxns, (forall x, In x rs -> amounts_of us x (turnover (objects x)))
  /\ lists_entries (fun i => e_comp (ent i)) (fun i => e_energy (ent i)) us pool /\ (forall r, In r rxns -> exists x, on_path rs per x /\ r = objects x)
  /\ ((forall x y, In x rs -> In y rs -> xeq x y = true -> like x y) ->
      (forall x y, In x rs -> In y rs -> req (objects x) (objects y) = true -> like x y) ->
      (forall targets mids xs, targets_of net0 = Ok targets -> intermediates C order pool rxns targets = Ok mids ->
         enumerated C (with_index pool) (entry_solve C (with_index pool)) (entry_rank C (with_index pool)) diagram wait mids
           {| en_options := default_options ichunk ijobs; en_precursors := []; en_targets := map e_id targets; en_open := None; en_duplicates := false |} = Ok xs -> sharp (map (set_rxn C) xs)) ->
      let way := on_the_way C ent us ts (on_path rs per) in
      exists ys, (forall y, In y ys -> plain y /\ (forall e, In e (x_entries y) -> exists u, way u /\ e = here u) /\ (NoDup (map form (x_entries y)) -> low C cutoff (combine (map (fun e => ent (uid e)) (x_entries y)) (x_coeffs y)))
                    /\ exists r p, could_react C ent way ts r p /\ turns C ent r p y)
      /\ (forall r p w, could_react C ent way ts r p -> NoDup (map form0 (r ++ p)) -> only_combination C (map form0 (r ++ p)) w -> LinSpec.sides (length r) w -> low C cutoff (combine (map ent (r ++ p)) w) ->
            exists y q, In y ys /\ (0 < q)%Q /\ (forall j u a, nth_error (r ++ p) j = Some u -> nth_error w j = Some a -> (amount y u == q * a)%Q) /\ forall u, ~ In u (r ++ p) -> (amount y u == 0)%Q)
      /\ ((forall x y, In x (rs ++ ys) -> In y (rs ++ ys) -> req (objects x) (objects y) = true -> like x y) ->
          (forall x y, In x (rs ++ ys) -> In y ys -> multiples x y \/ multiples y x -> req (objects x) (objects y) = true /\ req (objects y) (objects x) = true) ->
          (forall x, In x (rs ++ ys) -> req (objects x) net0 = true -> amounts_of us x (turnover net0)) ->
          (forall x r, In x (rs ++ ys) -> environment None (sm_chempot smk) r -> amounts_of us x (turnover r) -> req (objects x) r = true) ->
          let allowed := fun x => (on_path rs per x \/ In x ys) /\ ~ amounts_of us x (turnover net0) in
          forall ds, length ds = max -> (forall i j x y, i < j -> nth_error ds i = Some x -> nth_error ds j = Some y -> ~ like x y) -> (forall x, In x ds -> allowed x) ->
          forall xs ms, 1 <= length xs <= max -> (forall x, In x xs -> allowed x) -> unrelated xs ->
          (fi = true -> ~ circle (takes C (fun i => e_comp (ent i))) (gives C (fun i => e_comp (ent i))) (map (fun i => e_comp (ent i)) ps) xs) ->
          length ms = length xs -> Forall (fun q => (1 # 1000000 <= q)%Q) ms ->
          (forall i u, nth_error us i = Some u -> (together ms xs u == turnover net0 i)%Q) ->
          exists paths q ms' ms0 xs0, whole_flow C ent solve rank diagram arrange argsort shuffle wait listed members cpus nwait xcost sp xeq (exact_solve C) (exact_rank C) req path_pinv waits1 waits2 uniq clean cost inter0 chunk ens entries nmk smk max true fi = Ok (net0, paths)
          /\ In q paths /\ p_coeffs q = Some ms' /\ Forall2 Qeq ms' ms0 /\ length ms0 = length xs0 /\ Permutation (combine ms xs) (combine ms0 xs0)
          /\ Forall2 (fun x r => exists r', amounts_of us x (turnover r') /\ environment None (sm_chempot smk) r' /\ req r' r = true) xs0 (p_rxns q))).
Proof.
  intros Hens Us Sh Hincl Hst Dt Hin Ep Hps Et Hts Ek Hk Eno Sp St Eso.
  destruct (whole_finds_with C W Hbig ent Hid diagram wait Hw entries Hn Hne Hel arrange Harr argsort Harg shuffle Hsh listed members Hlisted Hmembers cpus Hcpus nwait Hnw xcost Hcost sp Hsp xeq Hxeq req waits1 waits2 uniq clean cost inter0 chunk Hw1 Hw2
    rhash Hreq Huniq Hnone Hclean Hchunk ens nmk smk max true fi ps ts k Hens Us Sh Hincl Hst Dt Hin Ep Hps Et Hts Ek Hk Sp St)
    as (us & rs & per & net0 & es & ks & v & t & rxns & Nus & Ius & Uus & Rs & Comp & _ & Path & Std & Ov & Sv & Tp & M & Pn & Env & R1 & R2 & Mu & Am & Find).
  specialize (Mu Eno). rewrite Eso in *. set (pool := numbered (fun i => e_comp (ent i)) (fun i => e_energy (ent i)) listed us) in *.
  set (obj := rxn_of C (fun i => e_comp (ent i)) (fun i => e_energy (ent i)) listed us) in *.
  assert (Nl : NoDup (listed us)) by exact (Permutation_NoDup (Permutation_sym (Hlisted us Nus)) Nus).
  assert (Hl : forall u, In u (listed us) <-> In u us) by (intros u; split; apply Permutation_in; [|apply Permutation_sym]; apply Hlisted; exact Nus).
  exists (listed us), rs, per, net0, es, ks, v, t. split; [exact Nl|]. split; [intros u Iu; apply Ius, Hl; exact Iu|]. repeat (split; [assumption|]).
  exists obj, pool, rxns. split; [exact Am|]. split.
  { split; [|intros i e E; exact (pool_id ent listed us Nl i e E)]. unfold pool, numbered. clear. induction (listed us) as [|u l IH]; cbn [map]; constructor; [split; reflexivity|exact IH]. }
  split; [exact R1|]. intros T1 T2 Shs way. set (walked := on_path rs per) in *.
  assert (Hw0 : forall x, walked x -> In x rs).
  { intros x (p & xs & _ & G & I). clear - G I. revert I. induction G as [|pc y p xs ((n & _ & E) & _) _ IH]; intros I; [destruct I|]. destruct I as [<-|I]; [exact (nth_error_In _ _ E)|exact (IH I)]. }
  assert (Hplain : forall x, walked x -> plain x) by (intros x Wx; apply (Rs x (Hw0 x Wx))).
  assert (Hent : forall x e, walked x -> In e (x_entries x) -> exists u, In u us /\ e = here u).
  { intros x e Wx I. destruct (Rs x (Hw0 x Wx)) as (P & en & r & p & _ & _ & T). destruct (turns_entries C ent r p x e P T I) as (u & ->). exists u. split; [|reflexivity]. apply Uus. exists x. split; [exact (Hw0 x Wx)|exact I]. }
  assert (R2' : forall x, walked x -> exists x' x'', walked x'' /\ like x' x /\ In (obj x'') rxns /\ like x' x'').
  { intros x Wx. destruct (R2 x Wx) as (x' & r & Wx' & Ex & Ir & Er). destruct (R1 r Ir) as (x'' & Wx'' & ->). exists x', x''. split; [exact Wx''|]. split; [apply T1; [apply Hw0; exact Wx'|apply Hw0; exact Wx|exact Ex]|]. split; [exact Ir|]. apply T2; [apply Hw0; exact Wx'|apply Hw0; exact Wx''|exact Er]. }
  assert (Lv : length v = length (ps ++ ts)) by (destruct Ov as ((L & _) & _); rewrite map_length in L; exact L).
  assert (Cnet : exists c, net0 = RComputed c) by (destruct net0; cbn in Env; try contradiction; eexists; reflexivity).
  assert (Hmu : forall x, walked x -> x_mu x = None) by (intros x Wx; apply Mu, Hw0; exact Wx).
  pose proof (mid_way C ent listed us ts ps Nl Hl walked Hplain Hent rxns R1 R2' net0 es ks v t Std Sv Lv Tp M Pn) as MW.
  pose proof (might_could C ent listed us ts ps Nl Hl walked Hplain Hent rxns R1 R2' net0 es ks v t Std Sv Lv Tp M Pn) as MC.
  pose proof (could_might C ent listed us ts ps Nl Hl walked Hplain Hent rxns R1 R2' net0 es ks v t Std Sv Lv Tp M Pn) as CM.
  pose proof (net_names C ent listed us ts ps net0 es ks Std Pn Cnet) as NN.
  pose proof (rxn_names C ent listed us Hl walked Hplain Hent rxns R1 Hmu) as RN.
  pose proof (rxn_full C ent listed us walked Hplain rxns R1 Hmu) as RF.
  pose proof (some_target C ent listed us ts ps Nl net0 es ks v t Std Sv Lv Tp M Pn Hts) as ST.
  destruct (search_spec C W Hbig pool) with (rxns := rxns) (net0 := net0) (diagram := diagram) (wait := wait) (arrange := arrange) (argsort := argsort) (shuffle := shuffle) (order := order) (chunk := ichunk) (jobs := ijobs) (cutoff := cutoff)
    as (zs & E & Sound & Cmp & _); try assumption.
  { intros i e Ee. exact (pool_id ent listed us Nl i e Ee). }
  { intros i e Ee. apply (pool_some ent listed us) in Ee as (L & ->). cbn [e_comp entry_of]. apply Hel, Ius, Hl, nm_mem. exact L. }
  { intros i j a c Ti _ Ea Ec Er. apply (pool_some ent listed us) in Ea as (L1 & ->), Ec as (L2 & ->). cbn [e_comp e_energy entry_of] in *.
    apply (target_iff C ent listed us ts ps Nl net0 es ks v t Std Sv Lv Tp M Pn) in Ti as (u & Eu & Iu). assert (u = nm listed us i) as -> by (symmetry; apply nm_some; exact Eu).
    destruct (Hst (nm listed us i) (nm listed us j)) as [H|H]; [apply in_app_iff; right; exact Iu|apply Ius, Hl, nm_mem; exact L2|exact Er| |right; exact H]. left. apply (nm_inj listed us Nl j i L2 L1). exact H. }
  assert (Ins : forall l, (forall i, In i l -> intermediate C pool rxns net0 i) -> inside listed us l) by (intros l H i I; apply MW, H; exact I).
  exists (map (relabel C ent listed us) zs). split; [|split].
  - intros y Iy. apply in_map_iff in Iy as (x & <- & Ix). destruct (Sound x Ix) as (Mx & P & (l & El & Nd & Ml & Low) & r & p & Mr & T & _). pose proof (Ins l Ml) as Il.
    split; [exact (relabel_plain C ent listed us Nl x l El Il P)|]. split; [|split].
    + intros e Ie. rewrite (relabel_entries C ent listed us x l El), map_map in Ie. apply in_map_iff in Ie as (i & <- & Ii). exists (nm listed us i). split; [apply MW, Ml; exact Ii|reflexivity].
    + rewrite (relabel_entries C ent listed us x l El). rewrite !(map_map here). cbn [uid in_set form]. intros Nf. apply (relabel_low C ent listed us l (x_coeffs x) cutoff Il), Low.
      pose proof (relabel_forms C ent listed us l Il) as Fm. fold pool in Fm. rewrite Fm. exact Nf.
    + destruct (MC r p Mr) as (Ir & Ip & Cr). exists (map (nm listed us) r), (map (nm listed us) p). split; [exact Cr|]. exact (relabel_turns C ent listed us Nl x l r p El Il Ir Ip T).
  - intros r p w Cr Nf Ow Sw Lw. destruct (CM r p Cr) as (Irp & Mr). set (pos := fun u => position u (listed us)) in *.
    assert (Back : map (nm listed us) (map pos r ++ map pos p) = r ++ p) by (rewrite <- map_app; apply map_nm_position; exact Irp).
    assert (Il : inside listed us (map pos r ++ map pos p)) by (rewrite <- map_app; intros i I; apply in_map_iff in I as (u & <- & I); apply position_lt, Irp; exact I).
    destruct (Cmp (map pos r) (map pos p) w Mr) as (z & q & Iz & Pq & Az).
    + pose proof (relabel_forms C ent listed us _ Il) as Fm. rewrite Back in Fm. fold pool in Fm. rewrite Fm. exact Nf.
    + pose proof (relabel_forms C ent listed us _ Il) as Fm. rewrite Back in Fm. fold pool in Fm. rewrite Fm. exact Ow.
    + rewrite map_length. exact Sw.
    + apply (relabel_low C ent listed us _ w cutoff Il). rewrite Back. exact Lw.
    + exists (relabel C ent listed us z), q. split; [apply in_map; exact Iz|]. split; [exact Pq|]. destruct (Sound z Iz) as (_ & P & (l & El & Nd & Ml & _) & _). pose proof (Ins l Ml) as Ilz.
      assert (Nrp : NoDup (map pos r ++ map pos p)).
      { apply NoDup_map_inv with (f := nm listed us). rewrite Back. destruct Cr as ((Nr & _) & (Np & _) & Di & _). clear -Nr Np Di. induction r as [|a r IH]; [exact Np|]. inversion Nr; subst. cbn [app]. constructor; [|apply IH; [assumption|intros u I; apply Di; right; exact I]].
        intros I. apply in_app_iff in I as [I|I]; [contradiction|]. exact (Di a (or_introl eq_refl) I). }
      assert (Lw0 : length w = length (map pos r ++ map pos p)) by (destruct Ow as ((L & _) & _); rewrite map_length in L; rewrite <- map_app, map_length; exact L).
      assert (Az' : forall u, In u (listed us) -> (amount (relabel C ent listed us z) u == q * coef (map pos r ++ map pos p) w (pos u))%Q).
      { intros u Iu. pose proof (relabel_amount C ent listed us Nl z l (pos u) El Ilz (position_lt listed us u Iu)) as Ra. unfold pos in Ra at 1. rewrite (nm_position listed us u Iu) in Ra. rewrite Ra. apply Az. }
      split.
      * intros j u a Eu Ea. assert (Iu : In u (listed us)) by (apply Irp; exact (nth_error_In _ _ Eu)). rewrite (Az' u Iu). rewrite (coef_nth _ _ j (pos u) a Nrp Lw0); [reflexivity| |exact Ea]. rewrite <- map_app, nth_error_map, Eu. reflexivity.
      * intros u Nu. destruct (in_dec Nat.eq_dec u (listed us)) as [Iu|Niu].
        -- rewrite (Az' u Iu), coef_none; [ring|]. rewrite <- map_app. intros I. apply in_map_iff in I as (u' & Eu & I). apply (f_equal (nm listed us)) in Eu. unfold pos in Eu. rewrite !nm_position in Eu by auto. subst u'. exact (Nu I).
        -- apply amount_none. intros e Ie Eu. rewrite (relabel_entries C ent listed us z l El), map_map in Ie. apply in_map_iff in Ie as (i & <- & Ii). cbn in Eu. apply Niu. rewrite <- Eu. apply nm_mem, Ilz. exact Ii.
  - intros T2' T5 T3 T4. refine (Find (map (relabel C ent listed us) zs) _ ltac:(discriminate) _ T1 T2' T5 T3 T4).
    + intros _. rewrite E. f_equal. rewrite map_map. apply map_ext_in. intros x Ix. destruct (Sound x Ix) as (_ & _ & (l & El & _ & Ml & _) & _). symmetry. exact (relabel_object C ent listed us x l El (Ins l Ml)).
    + intros y Iy. apply in_map_iff in Iy as (x & <- & Ix). destruct (Sound x Ix) as (Mx & P & (l & El & Nd & Ml & Low) & r & p & Mr & T & _). pose proof (Ins l Ml) as Il. split; [exact (relabel_plain C ent listed us Nl x l El Il P)|]. split; [|split].
      * rewrite (relabel_entries C ent listed us x l El). intros E0. apply map_eq_nil, map_eq_nil in E0. subst l. destruct Mr as ((_ & Lr) & _). destruct r as [|i r]; [cbn in Lr; lia|].
        destruct (proj2 (proj1 T (in_set C (with_index pool) i)) (ex_intro _ i (conj (or_introl eq_refl) eq_refl))) as (c & Tc & _). apply in_combine_l in Tc. rewrite El in Tc. destruct Tc.
      * intros e Ie. rewrite (relabel_entries C ent listed us x l El), map_map in Ie. apply in_map_iff in Ie as (i & <- & Ii). exists (nm listed us i). split; [apply Hl, nm_mem, Il; exact Ii|reflexivity].
      * intros c Ic. cbn [relabel x_coeffs] in Ic. destruct (in_combined_r (x_entries x) (x_coeffs x) c (proj1 (proj2 P)) Ic) as (e & Ie). destruct T as (_ & _ & B & _). specialize (B e c Ie). lra.
Qed.

Theorem flow_sound (lsq : list nat -> list nat -> list nat -> list Q) lrank pinv ens nmk smk max find fi ps ts k b net0 paths :
  (forall r p c, length (lsq r p c) = length r + length p) -> (forall M v, length (pinv M v) = length M) -> (forall l p, In p (uniq l) -> In p l) ->
  ens <> [] -> (forall en, In en ens -> usable en) ->
  (forall outs, Forall2 (fun en xs => enumerated C ent solve rank diagram wait entries en = Ok xs) ens outs -> sharp (map (set_rxn C) (concat outs))) -> incl (ps ++ ts) entries -> most_stable C ent epa0 entries (ps ++ ts) -> NoDup (ps ++ ts) ->
  (forall i, In i (ps ++ ts) -> exists r p, reacts C ent entries ens r p /\ In i (r ++ p)) ->
  nm_precursors nmk = Some (map form0 ps) -> ps <> [] -> nm_targets nmk = Some (map form0 ts) -> ts <> [] -> nm_k nmk = Some k -> 0 < k -> nm_open nmk = None ->
  sm_precursors smk = map form0 ps -> sm_targets smk = map form0 ts -> sm_open smk = None ->
  post_init C lsq lrank smk = Ok b -> num_errors b = Some 0 ->
  whole_flow C ent solve rank diagram arrange argsort shuffle wait listed members cpus nwait xcost sp xeq lsq lrank req pinv waits1 waits2 uniq clean cost inter0 chunk ens entries nmk smk max find fi = Ok (net0, paths) ->
  exists us rs per es ks kp pool rxns, NoDup us /\ incl us entries
  /\ (forall x, In x rs -> plain x /\ exists en r p, In en ens /\ looks_at C ent entries en r p /\ turns C ent r p x)
  /\ Forall2 (fun t pathways => pathways_to xcost rs (map here ps) (here t) k pathways) ts per
  /\ Forall2 (stands_for us) (map here (ps ++ ts)) es /\ length ks = length ps /\ length kp = length ts /\ parts net0 = combine es (ks ++ kp)
  /\ Forall (fun q => (q <= -(1 # 1000000))%Q) ks /\ Forall (fun q => (1 # 1000000 <= q)%Q) kp
  /\ (forall el, (Qabs (ReactionSpec.net C (combine (map form0 (ps ++ ts)) (ks ++ kp)) el) <= 1 # 100000000)%Q)
  /\ lists_entries (fun i => e_comp (ent i)) (fun i => e_energy (ent i)) us pool /\ (forall r, In r rxns -> exists x, on_path rs per x /\ amounts_of us x (turnover r))
  /\ ((forall targets mids xs, targets_of net0 = Ok targets -> intermediates C order pool rxns targets = Ok mids ->
         enumerated C (with_index pool) (entry_solve C (with_index pool)) (entry_rank C (with_index pool)) diagram wait mids
           {| en_options := default_options ichunk ijobs; en_precursors := []; en_targets := map e_id targets; en_open := None; en_duplicates := false |} = Ok xs -> sharp (map (set_rxn C) xs)) ->
      forall q, In q paths -> exists ms steps, p_coeffs q = Some ms /\ length ms = length steps /\ 1 <= length steps <= max /\ Forall (fun m => (1 # 1000000 <= m)%Q) ms
      /\ Forall2 makes_amounts (p_rxns q) steps
      /\ (forall a, In a steps -> (exists x, on_path rs per x /\ amounts_of us x a)
            \/ find = true /\ exists r p y, might_react C pool rxns net0 r p /\ turns_into C r p y /\ of_entries pool y /\ (distinct C (parts y) -> low C cutoff (parts y)) /\ forall i, (a i == turnover y i)%Q)
      /\ forall i, (Qabs (total ms steps i - turnover net0 i) <= (1 # 100000000) + (1 # 100000) * Qabs (turnover net0 i))%Q).
Proof.
  intros Hlsq Hpinv Hun Hens Us Sh Hincl Hst Nd Hin Ep Hps Et Hts Ek Hk Eno Sp St Eso Pi Ze H.
  destruct (handed_on C W Hbig ent Hid diagram wait Hw entries Hn Hne Hel arrange Harr argsort Harg shuffle Hsh ens ps ts Hens Us Sh Hincl Hst Hin) as (s & out & E & G & Good & Comp & (Sho & Hmu) & Hu & Hf & Hre & Hlow).
  unfold whole_flow in H. rewrite E in H. cbn [bind] in H.
  destruct (chain_sound_with C W (fun i => e_comp (ent i)) (fun i => e_energy (ent i)) listed members Hlisted Hmembers arrange Harr argsort Harg shuffle Hsh cpus Hcpus nwait Hnw xcost Hcost sp Hsp xeq Hxeq lsq lrank Hlsq req pinv
    waits1 waits2 uniq clean cost inter0 chunk Hw1 Hw2 Hpinv Hun nmk smk max find fi [s] [out] (map form0 ps) (map form0 ts) k b net0 paths) as (us & rs & m & pe & te & per & pool & rxns & Nus & Ius & Fam & Hm0 & Lp & Lt & Path & (gs & gt & es & ks & kp & L1 & L2 & Std & K1 & K2 & Pn & F1 & F2 & Cons) & Env & Lst & Only & Rx & Bal);
    rewrite ?only_set; try assumption.
  - constructor; [exact G|constructor].
  - intros x Ix. apply (Good x Ix).
  - destruct ps; [contradiction|discriminate].
  - destruct ts; [contradiction|discriminate].
  - rewrite <- map_app. exact (form_once C ent entries (ps ++ ts) Hincl Hst Nd).
  - intros f If. rewrite <- map_app in If. apply in_map_iff in If as (i & <- & _). apply (wf_red_red C W).
  - rewrite only_set in Ius, Fam, Hm0, Lp, Lt, L1, L2. rewrite map_length in K1, K2. rewrite <- map_app in Cons. rewrite Eso in Env.
    assert (Ips : incl ps (ps ++ ts)) by (intros i I; apply in_app_iff; left; exact I). assert (Its : incl ts (ps ++ ts)) by (intros i I; apply in_app_iff; right; exact I).
    apply Hlow in Lp as ->; [|exact Ips]. apply Hlow in Lt as ->; [|exact Its]. apply Hlow in L1 as ->; [|exact Ips]. apply Hlow in L2 as ->; [|exact Its]. rewrite <- map_app in Std.
    assert (Nl : NoDup (listed us)) by exact (Permutation_NoDup (Permutation_sym (Hlisted us Nus)) Nus).
    assert (Hl : forall u, In u (listed us) -> In u entries).
    { intros u Iu. apply (Permutation_in _ (Hlisted us Nus)), Ius in Iu as (e & Ie & <-). apply in_flat_map in Ie as (x & Ix & Ie). destruct (Good x Ix) as (_ & He & _). destruct (He e Ie) as (i & Ii & ->). exact Ii. }
    assert (Rs : forall x, In x rs -> plain x /\ x_mu x = None).
    { intros x Ix. destruct (proj1 (proj2 Fam) x Ix) as (y & Iy & ->). split; [apply (Good y Iy)|exact (proj2 Hm0 Eno Hmu)]. }
    assert (Hw0 : forall x, on_path rs per x -> In x rs).
    { intros x (p & xs & _ & Gt & I). clear - Gt I. revert I. induction Gt as [|pc y p xs ((n & _ & E) & _) _ IH]; intros I; [destruct I|]. destruct I as [<-|I]; [exact (nth_error_In _ _ E)|exact (IH I)]. }
    exists (listed us), rs, per, es, ks, kp, pool, rxns. split; [exact Nl|]. split; [exact Hl|].
    split; [exact (rs_turn C ent entries out m rs ens Fam Good)|]. split.
    { clear -Path. revert per Path. induction ts as [|t l IH]; intros per Path; cbn [map] in Path; inversion Path; subst; constructor; [assumption|apply IH; assumption]. }
    repeat (split; [assumption|]). split; [intros r Ir; destruct (Rx r Ir) as (x & Ox & Ax & _); exists x; auto|]. intros Shs.
    assert (At : forall i e, nth_error pool i = Some e -> exists u, nth_error (listed us) i = Some u /\ e_comp e = e_comp (ent u) /\ e_energy e = e_energy (ent u)).
    { intros i e Ee. destruct (nth_r _ _ _ (proj1 Lst) i e Ee) as (u & Eu & (Ec & En)). exists u. auto. }
    assert (Nm : forall r, (exists c, r = RComputed c) -> only_entries pool r -> names_entries pool r).
    { intros r (c0 & ->) O. split; [discriminate|]. intros e q I. pose proof (O _ I) as Ie. cbn [fst] in Ie. apply In_nth_error in Ie as (i & Ei). exists e. split; [|reflexivity]. rewrite (proj2 Lst i e Ei). exact Ei. }
    assert (Cr : forall r, In r rxns -> exists c, r = RComputed c /\ length (coeffs (c_base c)) = length (c_entries c)).
    { intros r Ir. destruct (Rx r Ir) as (x & Ox & _ & ->). destruct (Rs x (Hw0 x Ox)) as ((_ & Lc & _) & Mx). unfold rxn_of. rewrite Mx. eexists. split; [reflexivity|]. cbn. rewrite map_length. exact Lc. }
    assert (Tg : exists i, target net0 i).
    { assert (Lts : 0 < length ts) by (clear -Hts; destruct ts; [contradiction|cbn; lia]). destruct (nth_error (ks ++ kp) (length ps)) as [q|] eqn:Eq; [|apply nth_error_None in Eq; rewrite app_length in Eq; lia].
      pose proof (Forall2_length _ _ _ Std) as Les. rewrite map_length, app_length in Les. destruct (nth_error es (length ps)) as [e|] eqn:Ee; [|apply nth_error_None in Ee; lia]. exists (e_id e), e, q. split; [|split; [|reflexivity]].
      - rewrite Pn. apply (nth_error_In _ (length ps)), nth_combine. auto.
      - rewrite nth_error_app2 in Eq by lia. apply nth_error_In in Eq. rewrite Forall_forall in F2. specialize (F2 q Eq). lra. }
    assert (Sp0 : exists zs, inter0 pool rxns net0 = Ok (map (fun x => RComputed (object_of C pool x)) zs)
      /\ forall z, In z zs -> NoDup (map (fun ek => e_id (fst ek)) (parts (RComputed (object_of C pool z)))) /\ exists r p, might_react C pool rxns net0 r p /\ turns_into C r p (RComputed (object_of C pool z)) /\ of_entries pool (RComputed (object_of C pool z)) /\ (distinct C (parts (RComputed (object_of C pool z))) -> low C cutoff (parts (RComputed (object_of C pool z))))).
    { assert (H1 : forall i e, nth_error pool i = Some e -> e_id e = i) by exact (proj2 Lst).
      assert (H2 : forall i e, nth_error pool i = Some e -> ReactionModel.elems C (e_comp e) <> []) by (intros i e Ee; destruct (At i e Ee) as (u & Eu & -> & _); apply Hel, Hl; exact (nth_error_In _ _ Eu)).
      assert (H3 : names_entries pool net0) by (apply Nm; [destruct net0; cbn in Env; try contradiction; eexists; reflexivity|apply Only; left; reflexivity]).
      assert (H4 : forall r, In r rxns -> names_entries pool r) by (intros r Ir; apply Nm; [destruct (Cr r Ir) as (c & Ec & _); exists c; exact Ec|apply Only; right; exact Ir]).
      assert (H5 : forall r, In r rxns -> each_with_amount r) by (intros r Ir c Hc; destruct (Cr r Ir) as (c' & -> & Lc); destruct Hc as [Ec|(? & Ec)]; [injection Ec as <-; exact Lc|discriminate]).
      assert (H6 : forall i j a c, target net0 i -> intermediate C pool rxns net0 j -> nth_error pool i = Some a -> nth_error pool j = Some c -> red C (e_comp c) = red C (e_comp a) -> j = i \/ (e_energy a / natoms C (e_comp a) < e_energy c / natoms C (e_comp c))%Q).
      { intros i j a c Ti _ Ea Ec Er. destruct (At i a Ea) as (u & Eu & Eau & Enu), (At j c Ec) as (w & Ew & Ecw & Enw). rewrite Eau, Ecw, Enu, Enw in *.
        assert (Iu : In u ts).
        { destruct Ti as (e & q & I & Hq & Ei). rewrite Pn in I. apply In_nth_error in I as (n & En). apply nth_combine in En as (Ee & Eq). destruct (nth_r _ _ _ Std n e Ee) as (h & Eh & Sh0). rewrite nth_error_map in Eh. destruct (nth_error (ps ++ ts) n) as [u'|] eqn:Eu'; [|discriminate]. injection Eh as <-.
          destruct Sh0 as (Su & _). cbn in Su. rewrite Ei, Eu in Su. injection Su as <-. destruct (Nat.lt_ge_cases n (length ps)) as [L|Ge].
          - exfalso. rewrite nth_error_app1 in Eq by lia. apply nth_error_In in Eq. rewrite Forall_forall in F1. specialize (F1 q Eq). lra.
          - rewrite nth_error_app2 in Eu' by exact Ge. exact (nth_error_In _ _ Eu'). }
        destruct (Hst u w) as [H0|H0]; [apply in_app_iff; right; exact Iu|apply Hl; exact (nth_error_In _ _ Ew)|exact Er| |right; exact H0]. left. subst w.
        apply (proj1 (NoDup_nth_error (listed us)) Nl); [apply nth_error_Some; rewrite Ew; discriminate|congruence]. }
      destruct (search_spec C W Hbig pool H1 H2 rxns net0 H3 H4 H5 H6 Tg diagram wait Hw arrange Harr argsort Harg shuffle Hsh order Hord ichunk ijobs Hic Hij cutoff Shs) as (zs & Ez & Sound & _). exists zs. split; [exact Ez|].
      intros z Iz. destruct (Sound z Iz) as (_ & P & (l & El & Nd0 & Ml & Low) & r & p & Mr & T & _). pose proof (object_parts C pool z l El) as Op. split.
      - rewrite Op. rewrite <- (map_map fst e_id), map_fst_combined by (rewrite map_length; destruct P as (_ & L & _); rewrite L, El, map_length; reflexivity). rewrite map_map, (map_ext _ (fun i => i)), map_id; [exact Nd0|]. intros i. exact (ent_id pool H1 i).
      - exists r, p. split; [exact Mr|]. split; [exact (turns_turnover C pool H1 z l r p P El T (might_nodup C pool rxns net0 r p Mr))|]. split; [|rewrite Op; intros Nf; apply Low; unfold distinct in Nf; rewrite <- (map_map fst (fun e => red C (e_comp e))), map_fst_combined, map_map in Nf by (rewrite map_length; destruct P as (_ & L & _); rewrite L, El, map_length; reflexivity); exact Nf].
        exists (object_of C pool z). split; [reflexivity|]. rewrite (object_items C pool z l El). cbn [c_base c_entries computed_init coeffs basic_init]. split; [rewrite map_length; destruct P as (_ & L & _); rewrite L, El, map_length; reflexivity|].
        intros e I. apply in_map_iff in I as (i & <- & I). rewrite (ent_id pool H1 i). exact (mid_some C pool rxns net0 H3 H4 i (Ml i I)). }
    destruct Sp0 as (zs & Ez & Hz). intros q Iq.
    destruct (Bal) with (p := q) as (ms & steps & B1 & B2 & B3 & B4 & B5 & B6 & B7); [|exact Iq|].
    + intros l r El Ir. rewrite Ez in El. injection El as <-. apply in_map_iff in Ir as (z & <- & Iz). apply (Hz z Iz).
    + exists ms, steps. repeat (split; [assumption|]). split; [|exact B7]. intros a Ia. destruct (B6 a Ia) as [O|(Ef & l & r & El & Ir & Ea)]; [left; exact O|right]. split; [exact Ef|].
      rewrite Ez in El. injection El as <-. apply in_map_iff in Ir as (z & <- & Iz). destruct (Hz z Iz) as (_ & r & p & Mr & T & Of & Low). exists r, p, (RComputed (object_of C pool z)). auto.
Qed.
End Flow.
