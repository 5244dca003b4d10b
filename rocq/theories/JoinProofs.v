(* From entries to pathways (C133). *)
From Verif Require SolverTopProofs.
From Verif Require Import Prelude NumQ SumQ ListFacts UtilsModel UtilsSpec UtilsProofs ReactionModel ReactionSpec ReactionBaseProofs ReactionBalanceProofs
  EnumModel EnumSpec EnumProofs EnumOrderProofs EnumReactProofs EnumLinkModel EnumLinkProofs EnumRealProofs LinModel LinSpec LinBalanceProofs
  RxnSetModel RxnSetSpec RxnSetBaseProofs RxnSetProofs RxnSetParProofs RxnSetDupProofs RxnSetFilterProofs RxnSetTempProofs RunModel RunProofs
  NetModel YenModel YenSpec ShortestPath FlowModel NetJobModel NetJobSpec NetJobProofs JoinModel JoinSpec.
From Coq Require Import Lqa Lia.
Open Scope nat_scope.

(* --- the objects that are kept --- *)
Section Objects.
Context {D X : Type}.
Variable see : X -> erxn.
Variable elems : nat -> list nat.
Variable iterable : list (list nat) -> list (list nat) -> list (list nat * list nat).
Variable iter_length : list (list nat) -> list (list nat) -> nat.
Variable react : list nat -> list nat -> D -> result (list X).
Variable diagram : list nat -> D.

Lemma keep_chunk_cat o pre tar op chunk :
  keep_chunk see react o pre tar op chunk = cat (fun tp => keep_pair see react o pre tar op (fst tp) (snd tp)) (contents chunk).
Proof.
  unfold keep_chunk, contents. rewrite flat_map_concat_map, cat_concat, cat_map, bind_concat. apply cat_ext. intros [l t] _. simpl.
  rewrite bind_concat, cat_map. reflexivity.
Qed.

Lemma keep_all o entries pre tar op opens wait : 1 <= o_chunk o -> 1 <= o_jobs o -> valid_schedule wait ->
  (forall cs, iter_length cs opens = length (iterable cs opens)) ->
  agree (@Permutation X) (keep_rxns see elems iterable iter_length react diagram o entries pre tar op opens wait)
    (cat (fun kp => keep_pair see react o pre tar op (diagram (fst kp)) (snd kp))
         (tagged (map (fun kv => (fst kv, iterable (snd kv) opens)) (combos_dict elems o entries pre tar op)))).
Proof.
  intros H1 H2 Hw Hlen. unfold keep_rxns. set (d := combos_dict elems o entries pre tar op).
  rewrite (total_tagged iterable iter_length diagram opens d Hlen). set (items := map (fun kv => (diagram (fst kv), iterable (snd kv) opens)) d).
  destruct (jobs_spec (o_chunk o) (o_jobs o) items H1 H2) as (jobs & size & E & Ec & _). rewrite E. cbn [bind].
  destruct (to_iterator_spec wait (keep_chunk see react o pre tar op) jobs Hw) as [(out & Eo & _ & Hp) _]. rewrite Eo. cbn [bind].
  rewrite bind_concat.
  assert (T : forall (x y z : result (list X)), agree (@Permutation X) x y -> y = z -> agree (@Permutation X) x z) by (intros x y z H <-; exact H).
  eapply T; [apply (cat_perm (fun r => r) _ _ Hp)|]. rewrite cat_map.
  transitivity (cat (cat (fun tp => keep_pair see react o pre tar op (fst tp) (snd tp))) (map contents jobs)).
  { rewrite cat_map. apply cat_ext. intros chunk _. apply keep_chunk_cat. }
  rewrite <- cat_concat, Ec. unfold items, tagged. rewrite !flat_map_concat_map, !cat_concat, !map_map, !cat_map. apply cat_ext.
  intros kv _. simpl. rewrite !cat_map. reflexivity.
Qed.

Lemma filter_map {A B} (f : A -> B) (q : B -> bool) l : filter q (map f l) = map f (filter (fun x => q (f x)) l).
Proof. induction l as [|x l IH]; [reflexivity|]. simpl. destruct (q (f x)); simpl; rewrite IH; reflexivity. Qed.

Lemma keep_seen (react' : list nat -> list nat -> D -> result (list erxn)) o pre tar op (l : list (D * (list nat * list nat))) :
  (forall t rp, In (t, rp) l -> react' (fst rp) (snd rp) t = bind (react (fst rp) (snd rp) t) (fun xs => Ok (map see xs))) ->
  cat (fun tp => react_pair react' o pre tar op (fst tp) (snd tp)) l
  = bind (cat (fun tp => keep_pair see react o pre tar op (fst tp) (snd tp)) l) (fun xs => Ok (map see xs)).
Proof.
  induction l as [|[t rp] l IH]; intros H; [reflexivity|]. rewrite !cat_cons, IH by (intros t' rp' I; apply H; right; exact I).
  cbn [fst snd]. set (others := cat (fun tp => keep_pair see react o pre tar op (fst tp) (snd tp)) l). unfold react_pair, keep_pair. destruct (consider o pre tar op (fst rp) (snd rp)).
  - rewrite (H t rp (or_introl eq_refl)). destruct (react (fst rp) (snd rp) t) as [xs|e]; cbn [bind]; [|reflexivity].
    rewrite filter_map. destruct others as [ys|e]; cbn [bind]; [rewrite map_app|]; reflexivity.
  - cbn [bind]. destruct others as [ys|e]; reflexivity.
Qed.

Lemma cat_in {A B} (f : A -> result (list B)) l out x : cat f l = Ok out -> In x out -> exists a xs, In a l /\ f a = Ok xs /\ In x xs.
Proof.
  unfold cat. intros E I. destruct (mapM f l) as [ls|] eqn:M; [|discriminate]. injection E as <-. apply in_concat in I as (xs & Hxs & I).
  apply mapM_Forall2 in M. destruct (Forall2_In_r _ _ _ _ M Hxs) as (a & Ha & E). exists a, xs. split; [exact Ha|]. split; assumption.
Qed.
End Objects.

Lemma agree_map {A B} (f : A -> B) (x y : result (list A)) : agree (@Permutation A) x y ->
  agree (@Permutation B) (bind x (fun l => Ok (map f l))) (bind y (fun l => Ok (map f l))).
Proof. destruct x, y; simpl; auto. apply Permutation_map. Qed.

(* --- one reaction --- *)
Section One.
Variable C : chem.
Hypothesis W : wf_chem C.
Variable ent : nat -> entry.
Hypothesis Hid : forall i, e_id (ent i) = i.
Variable solve : list nat -> list nat -> list nat -> list Q.
Variable rank : list nat -> list nat -> nat.
Hypothesis Hsolve : forall r p c, length (solve r p c) = length r + length p.
Notation form0 i := (red C (e_comp (ent i))).
Notation here := (in_set C ent).

Lemma set_entry_here i : set_entry C (ent i) = here i.
Proof. unfold set_entry, in_set. rewrite Hid. reflexivity. Qed.

Lemma real_balance_ok r p : r <> [] -> p <> [] -> exists x, real_balance C ent solve rank r p = Ok x /\ c_entries x = map ent r ++ map ent p.
Proof.
  intros Hr Hp. unfold real_balance, computed_balance. destruct (balance_coeffs _ _ _ _ _) as [ks low].
  replace (Nat.eqb (length (map ent r) + length (map ent p)) 1) with false.
  2:{ symmetry. apply Nat.eqb_neq. rewrite !map_length. destruct r; [contradiction|]. destruct p; [contradiction|]. simpl. lia. }
  eexists. split; reflexivity.
Qed.

Lemma balance_split r p x : r <> [] -> p <> [] -> real_balance C ent solve rank r p = Ok x -> num_errors (c_base x) = Some 0 ->
  exists kr kp, c_entries x = map ent (r ++ p) /\ coeffs (c_base x) = kr ++ kp /\ length r = length kr /\ length p = length kp
  /\ (forall k, In k kr -> (k <= -(1 # 1000000))%Q) /\ (forall k, In k kp -> ((1 # 1000000) <= k)%Q)
  /\ forall e, (Qabs (ReactionSpec.net C (combine (map (fun i => form0 i) (r ++ p)) (kr ++ kp)) e) <= 1 # 100000000)%Q.
Proof.
  intros Hr Hp. unfold real_balance, computed_balance.
  set (rc := map (fun e => red C (e_comp e)) (map ent r)). set (pc := map (fun e => red C (e_comp e)) (map ent p)).
  destruct (balance_coeffs C rc pc (solve r p) (rank r p)) as [ks low] eqn:E.
  replace (Nat.eqb (length (map ent r) + length (map ent p)) 1) with false.
  2:{ symmetry. apply Nat.eqb_neq. rewrite !map_length. destruct r; [contradiction|]. destruct p; [contradiction|]. simpl. lia. }
  intros Ex. injection Ex as <-. cbn [c_base c_entries computed_init num_errors basic_init coeffs]. intros ->.
  assert (Lrc : length rc = length r) by (unfold rc; rewrite !map_length; reflexivity). assert (Lpc : length pc = length p) by (unfold pc; rewrite !map_length; reflexivity).
  assert (Eb : basic_balance C rc pc (solve r p) (rank r p) = Ok (basic_init C (rc ++ pc) ks (Some true) (Some 0))).
  { unfold basic_balance. rewrite E. replace (Nat.eqb (length (rc ++ pc)) 1) with false; [reflexivity|]. symmetry. apply Nat.eqb_neq. rewrite app_length, Lrc, Lpc.
    destruct r; [contradiction|]. destruct p; [contradiction|]. simpl. lia. }
  apply (balance_sound C W) in Eb as (_ & Hl & Hbal & _); [|intros c; rewrite Hsolve, Lrc, Lpc; reflexivity].
  cbn [balanced basic_init coeffs comps num_errors species] in Hl, Hbal. destruct (Hbal eq_refl) as (Hnet & _ & Hsign). specialize (Hsign eq_refl).
  unfold species in Hnet. cbn [comps coeffs basic_init] in Hnet. rewrite app_length, Lrc, Lpc in Hl.
  set (kr := firstn (length r) ks). set (kp := skipn (length r) ks). assert (Ek : ks = kr ++ kp) by (symmetry; apply firstn_skipn).
  assert (Lkr : length r = length kr) by (unfold kr; rewrite firstn_length; lia). assert (Lkp : length p = length kp) by (unfold kp; rewrite skipn_length; lia).
  exists kr, kp. split; [symmetry; apply map_app|]. split; [exact Ek|]. split; [exact Lkr|]. split; [exact Lkp|]. split; [|split].
  - intros k Hk. apply In_nth_error in Hk as (i & Hi). assert (i < length kr) by (apply nth_error_Some; congruence).
    apply (Hsign i k); [rewrite Ek, nth_error_app1; assumption|lia].
  - intros k Hk. apply In_nth_error in Hk as (i & Hi). apply (Hsign (length kr + i) k); [|lia]. rewrite Ek, nth_error_app2 by lia. rewrite <- Hi. f_equal. lia.
  - intros e. specialize (Hnet e). rewrite <- Ek. replace (map (fun i => form0 i) (r ++ p)) with (rc ++ pc); [exact Hnet|]. unfold rc, pc. rewrite !map_map, <- map_app. reflexivity.
Qed.

Lemma in_combine_one {A B} (l : list A) (ks : list B) a : length l = length ks -> In a l -> exists k, In (a, k) (combine l ks) /\ In k ks.
Proof.
  revert ks. induction l as [|y l IH]; intros [|k ks] L I; try discriminate; [destruct I|]. destruct I as [->|I].
  - exists k. split; left; reflexivity.
  - injection L as L. destruct (IH ks L I) as (k' & H1 & H2). exists k'. split; right; assumption.
Qed.

(* the sides of a reaction by their signs *)
Lemma turns_by_sign a b ka kb x : length a = length ka -> length b = length kb ->
  Permutation (combine (x_entries x) (x_coeffs x)) (combine (map here a) ka ++ combine (map here b) kb) ->
  (forall k, In k ka -> (k <= -(1 # 1000000))%Q) -> (forall k, In k kb -> ((1 # 1000000) <= k)%Q) ->
  (forall el, (Qabs (sumQ (fun ec => amt C (form (fst ec)) el * snd ec) (combine (x_entries x) (x_coeffs x))) <= 1 # 100000000)%Q) ->
  turns C ent a b x.
Proof.
  intros La Lb Hp Ha Hb Hn.
  assert (T : forall e c, takes_part x e c <-> In (e, c) (combine (map here a) ka) \/ In (e, c) (combine (map here b) kb)).
  { intros e c. unfold takes_part. rewrite <- in_app_iff. split; apply Permutation_in; [exact Hp|apply Permutation_sym; exact Hp]. }
  assert (L : forall (l : list nat) (ks : list Q) e c, In (e, c) (combine (map here l) ks) -> (exists i, In i l /\ e = here i) /\ In c ks).
  { intros l ks e c I. split; [|exact (in_combine_r _ _ _ _ I)]. apply in_combine_l in I. apply in_map_iff in I as (i & <- & Hi). exists i. split; [exact Hi|reflexivity]. }
  split; [|split; [|split; [|exact Hn]]].
  - intros e. split.
    + intros (c & Hc & Neg). apply T in Hc as [I|I]; destruct (L _ _ _ _ I) as [G K]; [exact G|]. specialize (Hb c K). lra.
    + intros (i & Hi & ->). destruct (in_combine_one (map here a) ka (here i)) as (k & I & K); [rewrite map_length; exact La|apply in_map; exact Hi|].
      exists k. split; [apply T; left; exact I|]. specialize (Ha k K). lra.
  - intros e. split.
    + intros (c & Hc & Pos). apply T in Hc as [I|I]; destruct (L _ _ _ _ I) as [G K]; [|exact G]. specialize (Ha c K). lra.
    + intros (i & Hi & ->). destruct (in_combine_one (map here b) kb (here i)) as (k & I & K); [rewrite map_length; exact Lb|apply in_map; exact Hi|].
      exists k. split; [apply T; right; exact I|]. specialize (Hb k K). lra.
  - intros e c Hc. apply T in Hc as [I|I]; destruct (L _ _ _ _ I) as [_ K].
    + specialize (Ha c K). rewrite Qabs_neg by lra. lra.
    + specialize (Hb c K). rewrite Qabs_pos by lra. lra.
Qed.

Lemma sum_here l ks el : (sumQ (fun ec => amt C (form (fst ec)) el * snd ec) (combine (map here l) ks) == ReactionSpec.net C (combine (map (fun i => form0 i) l) ks) el)%Q.
Proof. unfold ReactionSpec.net. revert ks. induction l as [|i l IH]; intros [|k ks]; try reflexivity. cbn [map combine]. rewrite !sumQ_cons, IH. reflexivity. Qed.

Lemma object_turns {D} r p (t : D) xs x : r <> [] -> p <> [] -> react_objects C ent solve rank r p t = Ok xs -> In x xs -> num_errors (c_base (ro_rxn x)) = Some 0 ->
  exists a b, (a = r /\ b = p \/ a = p /\ b = r) /\ turns C ent a b (set_rxn C x)
  /\ x_entries (set_rxn C x) = map here (r ++ p) /\ length (x_coeffs (set_rxn C x)) = length (r ++ p)
  /\ (forall c, In c (x_coeffs (set_rxn C x)) -> ~ (c == 0)%Q).
Proof.
  intros Hr Hp E I Z. unfold react_objects in E. destruct (real_balance C ent solve rank r p) as [y|] eqn:By; [|discriminate]. cbn [bind] in E. injection E as <-.
  assert (Zy : num_errors (c_base y) = Some 0) by (destruct I as [<-|[<-|[]]]; exact Z).
  destruct (balance_split r p y Hr Hp By Zy) as (kr & kp & Ee & Ek & Lr & Lp & Hkr & Hkp & Hn).
  assert (Es : map (set_entry C) (map ent (r ++ p)) = map here (r ++ p)) by (rewrite map_map; apply map_ext; exact set_entry_here).
  destruct I as [<-|[<-|[]]]; cbn [ro_rxn] in *.
  - exists r, p. split; [left; split; reflexivity|]. unfold set_rxn. cbn [ro_rxn x_entries x_coeffs]. rewrite Ee, Es, Ek.
    split; [|split; [reflexivity|split; [rewrite !app_length; lia|]]].
    + apply (turns_by_sign r p kr kp); try assumption.
      * cbn [x_entries x_coeffs ro_rxn]. rewrite map_app, combine_app by (rewrite map_length; exact Lr). apply Permutation_refl.
      * intros el. cbn [x_entries x_coeffs ro_rxn]. rewrite sum_here. apply Hn.
    + intros c Hc Zc. apply in_app_iff in Hc as [Hc|Hc]; [specialize (Hkr c Hc)|specialize (Hkp c Hc)]; rewrite Zc in *; lra.
  - exists p, r. split; [right; split; reflexivity|].
    assert (Ec : coeffs (c_base (computed_reverse C y)) = map (fun q => -1 * q)%Q kr ++ map (fun q => -1 * q)%Q kp).
    { rewrite <- map_app, <- Ek. reflexivity. }
    assert (Een : c_entries (computed_reverse C y) = map ent (r ++ p)) by (rewrite <- Ee; reflexivity).
    unfold set_rxn. cbn [ro_rxn x_entries x_coeffs]. rewrite Een, Es, Ec.
    split; [|split; [reflexivity|split; [rewrite !app_length, !map_length; lia|]]].
    + apply (turns_by_sign p r (map (fun q => -1 * q)%Q kp) (map (fun q => -1 * q)%Q kr)); [rewrite map_length; exact Lp|rewrite map_length; exact Lr| | | |].
      * cbn [x_entries x_coeffs ro_rxn]. rewrite map_app, combine_app by (rewrite !map_length; exact Lr). apply Permutation_app_comm.
      * intros k Hk. apply in_map_iff in Hk as (q & <- & Hq). specialize (Hkp q Hq). lra.
      * intros k Hk. apply in_map_iff in Hk as (q & <- & Hq). specialize (Hkr q Hq). lra.
      * intros el. cbn [x_entries x_coeffs ro_rxn]. rewrite <- map_app, sum_here.
        specialize (Hn el). assert (N : (ReactionSpec.net C (combine (map (fun i => form0 i) (r ++ p)) (map (fun q => -1 * q) (kr ++ kp))) el == - ReactionSpec.net C (combine (map (fun i => form0 i) (r ++ p)) (kr ++ kp)) el)%Q).
        { generalize (kr ++ kp). generalize (r ++ p). clear. unfold ReactionSpec.net. induction l as [|i l IH]; intros [|k ks]; cbn [map combine]; try reflexivity. rewrite !sumQ_cons, IH. cbn [fst snd]. ring. }
        rewrite N, Qabs_opp. exact Hn.
    + intros c Hc Zc. apply in_app_iff in Hc as [Hc|Hc]; apply in_map_iff in Hc as (q & <- & Hq); [specialize (Hkr q Hq)|specialize (Hkp q Hq)]; lra.
Qed.

Lemma turns_same a b a' b' x : EnumSpec.same_set a a' -> EnumSpec.same_set b b' -> turns C ent a b x -> turns C ent a' b' x.
Proof.
  intros Sa Sb (U & M & T & N). split; [|split; [|split; assumption]].
  - intros e. rewrite U. split; intros (i & Hi & He); exists i; (split; [apply Sa; exact Hi|exact He]).
  - intros e. rewrite M. split; intros (i & Hi & He); exists i; (split; [apply Sb; exact Hi|exact He]).
Qed.

Lemma turns_sides a b a' b' x : turns C ent a b x -> turns C ent a' b' x -> EnumSpec.same_set a a' /\ EnumSpec.same_set b b'.
Proof.
  assert (I : forall i j, here i = here j -> i = j) by (intros i j E; injection E; auto).
  intros (U & M & _) (U' & M' & _). split; intros i; split; intros Hi.
  - destruct (proj1 (U' (here i)) (proj2 (U (here i)) (ex_intro _ i (conj Hi eq_refl)))) as (j & Hj & E). apply I in E as ->. exact Hj.
  - destruct (proj1 (U (here i)) (proj2 (U' (here i)) (ex_intro _ i (conj Hi eq_refl)))) as (j & Hj & E). apply I in E as ->. exact Hj.
  - destruct (proj1 (M' (here i)) (proj2 (M (here i)) (ex_intro _ i (conj Hi eq_refl)))) as (j & Hj & E). apply I in E as ->. exact Hj.
  - destruct (proj1 (M (here i)) (proj2 (M' (here i)) (ex_intro _ i (conj Hi eq_refl)))) as (j & Hj & E). apply I in E as ->. exact Hj.
Qed.

(* what the filters see of the sides *)
Lemma seen_sides x a b : length (coeffs (c_base (ro_rxn x))) = length (c_entries (ro_rxn x)) -> turns C ent a b (set_rxn C x) ->
  EnumSpec.same_set (er_reactants (see_object C x)) a /\ EnumSpec.same_set (er_products (see_object C x)) b.
Proof.
  intros L (U & M & _). unfold see_object, seen_by_react. cbn [er_reactants er_products]. unfold ReactionModel.reactant_entries, ReactionModel.product_entries.
  assert (G : forall (q : Q -> bool) (P : Q -> Prop) i, (forall c, q c = true <-> P c) ->
     In i (map e_id (map fst (filter (fun ek : entry * Q => q (snd ek)) (combine (c_entries (ro_rxn x)) (coeffs (c_base (ro_rxn x))))))) <->
     exists e c, takes_part (set_rxn C x) e c /\ P c /\ uid e = i).
  { intros q P i HP. rewrite map_map, in_map_iff. unfold takes_part, set_rxn. cbn [x_entries x_coeffs].
    assert (R : combine (map (set_entry C) (c_entries (ro_rxn x))) (coeffs (c_base (ro_rxn x))) = map (fun ek => (set_entry C (fst ek), snd ek)) (combine (c_entries (ro_rxn x)) (coeffs (c_base (ro_rxn x))))).
    { generalize (coeffs (c_base (ro_rxn x))). generalize (c_entries (ro_rxn x)). clear. induction l as [|e l IH]; intros [|k ks]; try reflexivity. cbn [map combine]. rewrite IH. reflexivity. }
    rewrite R. split.
    - intros ([e c] & <- & I). apply filter_In in I as [I Q]. exists (set_entry C e), c. split; [apply in_map_iff; exists (e, c); split; [reflexivity|exact I]|]. split; [apply HP; exact Q|reflexivity].
    - intros (e & c & I & Q & <-). apply in_map_iff in I as ([e' c'] & E & I). injection E as <- <-. exists (e', c'). split; [reflexivity|]. apply filter_In. split; [exact I|apply HP; exact Q]. }
  split; intros i.
  - rewrite (G (fun c => Qlt_bool c 0) (fun c => c < 0)%Q i) by (intros c; apply Qlt_bool_iff'). split.
    + intros (e & c & I & N & <-). destruct (proj1 (U e) (ex_intro _ c (conj I N))) as (j & Hj & ->). exact Hj.
    + intros Hi. destruct (proj2 (U (here i)) (ex_intro _ i (conj Hi eq_refl))) as (c & I & N). exists (here i), c. split; [exact I|]. split; [exact N|reflexivity].
  - rewrite (G (fun c => Qlt_bool 0 c) (fun c => 0 < c)%Q i) by (intros c; apply Qlt_bool_iff'). split.
    + intros (e & c & I & N & <-). destruct (proj1 (M e) (ex_intro _ c (conj I N))) as (j & Hj & ->). exact Hj.
    + intros Hi. destruct (proj2 (M (here i)) (ex_intro _ i (conj Hi eq_refl))) as (c & I & N). exists (here i), c. split; [exact I|]. split; [exact N|reflexivity].
Qed.
End One.

(* --- one enumerator --- *)
Lemma basic_code_pairs elems o entries pre tar r p : NoDup entries -> (forall e, In e entries -> elems e <> []) ->
  In (r, p) (flat_map (fun kv => basic_iterable (snd kv) []) (combos_dict elems o entries pre tar [])) -> combo entries (o_n o) r /\ combo entries (o_n o) p.
Proof.
  intros Hn Hel H. assert (Hnd : NoDup (limited_powerset entries (o_n o))) by (apply NoDup_limited_powerset; exact Hn).
  destruct (code_pairs elems o entries pre tar [] basic_iterable []) as [_ G].
  - intros k [r' p']. rewrite !basic_iterable_in, subseq_filter. cbn [fst snd]. split.
    + intros [Hs Hf]. inversion Hf as [|? ? F1 Hf']; subst. inversion Hf' as [|? ? F2 _]; subst. apply list_eqb_iff in F1, F2. split; [exact Hs|]. split; congruence.
    + intros (Hs & K1 & K2). split; [exact Hs|]. constructor; [apply list_eqb_iff; congruence|]. constructor; [apply list_eqb_iff; congruence|constructor].
  - intros f. apply NoDup_basic_iterable. rewrite minus_nil. apply NoDup_filter. exact Hnd.
  - intros r' p' Hin. apply basic_iterable_in in Hin. rewrite minus_nil in *. apply subseq_pair_in in Hin as [I1 I2]. rewrite !minus_nil. split; [exact I1|].
    apply in_limited_powerset in I1 as [U1 I1], I2 as [U2 I2]. split; [destruct r'; simpl in *; [lia|discriminate]|]. split; [destruct p'; simpl in *; [lia|discriminate]|].
    intros e He. apply Hel. destruct He as [He|He]; [exact (subseq_In _ _ _ U1 He)|exact (subseq_In _ _ _ U2 He)].
  - apply G in H as (H & _). apply basic_iterable_in in H. rewrite minus_nil in H. apply subseq_pair_in in H as [I1 I2]. split; apply combo_iff; assumption.
Qed.

Lemma looks_some C ent entries en r p : looks_at C ent entries en r p -> r <> [] /\ p <> [].
Proof.
  assert (G : forall n c, combo entries n c -> c <> []) by (intros n c (_ & L) ->; cbn in L; lia).
  assert (G' : forall op n a b, takes_open op entries n a b -> a <> [] /\ b <> []).
  { intros op n a b ((A & _) & c & oc & (B & _) & _ & ->). split; [exact (G n a A)|]. intros E. apply app_eq_nil in E as [E _]. exact (G n c B E). }
  intros (R & _). unfold in_reach in R. destruct (en_open en); [|destruct R as [A B]; split; eapply G; eassumption].
  destruct R as [R|R]; apply G' in R as [A B]; split; assumption.
Qed.

Lemma consider_disjoint o pre tar op r p : consider o pre tar op r p = true -> disjoint r p.
Proof.
  unfold consider. rewrite !andb_true_iff, negb_true_iff, !orb_false_iff. intros ((((M & _) & _) & _) & _) x Hx Hy.
  assert (T : meets r p = true) by (apply meets_iff; exists x; split; assumption). congruence.
Qed.

Section Enumerator.
Variable C : chem.
Hypothesis W : wf_chem C.
Hypothesis Hbig : forall c e, In e (ReactionModel.elems C c) -> (1 # 100 < amt C (red C c) e)%Q.
Variable ent : nat -> entry.
Hypothesis Hid : forall i, e_id (ent i) = i.
Context {D : Type}.
Variable diagram : list nat -> D.
Variable wait : nat -> list (list (list (list nat * list nat) * D)) -> list (list (list (list nat * list nat) * D)) * list (list (list (list nat * list nat) * D)).
Hypothesis Hw : valid_schedule wait.
Variable entries : list nat.
Hypothesis Hn : NoDup entries.
Hypothesis Hel : forall e, In e entries -> ReactionModel.elems C (e_comp (ent e)) <> [].
Notation solve := (entry_solve C ent).
Notation rank := (entry_rank C ent).
Notation els := (fun i => ReactionModel.elems C (e_comp (ent i))).
Notation here := (in_set C ent).
Lemma here_inj i j : here i = here j -> i = j.
Proof. intros E. injection E. auto. Qed.

Lemma system_same o oe r p : (forall x, (exists e, In e r /\ In x (els e)) <-> (exists e, In e p /\ In x (els e))) -> system_ok els o oe r -> system_ok els o oe p.
Proof. intros G (k & (K1 & K2) & K3). exists k. split; [split; [exact K1|]|exact K3]. intros x. rewrite K2, <- G. reflexivity. Qed.

Lemma same_sym a b : EnumSpec.same_set a b -> EnumSpec.same_set b a.
Proof. intros H x. symmetry. apply H. Qed.
Lemma same_trans a b c : EnumSpec.same_set a b -> EnumSpec.same_set b c -> EnumSpec.same_set a c.
Proof. intros H K x. rewrite (H x). apply K. Qed.

(* what is needed of the pairs that are tried *)
Definition fit (r p : list nat) : Prop := (r <> [] /\ p <> []) /\ (NoDup r /\ NoDup p) /\ incl r entries /\ incl p entries.

Section Kind.
Variable en : enumerator.
Hypothesis Us : usable en.
Variable op : list nat.
Variable opens : list (list nat).
Variable iterable : list (list nat) -> list (list nat) -> list (list nat * list nat).
Variable iter_length : list (list nat) -> list (list nat) -> nat.
Hypothesis Hlen : forall cs, iter_length cs opens = length (iterable cs opens).
Notation o := (en_options en).
Notation pre := (en_precursors en).
Notation tar := (en_targets en).
Notation fwd := (forward_rxn C ent solve rank).
Notation bwd := (backward_rxn C ent solve rank).
Hypothesis Hfit : forall r p, In (r, p) (flat_map (fun kv => iterable (snd kv) opens) (combos_dict els o entries pre tar op)) -> fit r p.
Variable pk : list nat -> list nat -> Prop.
Variable oe : list nat.
Hypothesis Hall : exists out, enumerate_rxns els iterable iter_length (basic_react fwd bwd) diagram o entries pre tar op opens wait = Ok out
  /\ all_reactions o pre tar op fwd bwd (fun r p => pk r p /\ disjoint r p /\ system_ok els o oe r) out.
Variable reach : list nat -> list nat -> Prop.
Hypothesis Hreach : forall r p, disjoint r p -> (reach r p <-> pk r p \/ pk p r).
Hypothesis Hne : forall r p, pk r p -> r <> [] /\ p <> [].

Lemma seen_kind : exists xs out, keep_rxns (see_object C) els iterable iter_length (react_objects C ent solve rank) diagram o entries pre tar op opens wait = Ok xs
  /\ all_reactions o pre tar op fwd bwd (fun r p => pk r p /\ disjoint r p /\ system_ok els o oe r) out
  /\ Permutation out (map (see_object C) xs)
  /\ forall x, In x xs -> exists r p t l, fit r p /\ disjoint r p
     /\ react_objects C ent solve rank r p (t : D) = Ok l /\ In x l /\ accept o pre tar op (see_object C x) = true.
Proof.
  destruct Us as (Hch & H1 & H2 & Hc). destruct Hall as (out & E & HA).
  pose proof (enumerate_all els iterable iter_length (basic_react fwd bwd) diagram o entries pre tar op opens wait H1 H2 Hw Hlen) as A1. rewrite E in A1.
  pose proof (keep_all (see_object C) els iterable iter_length (react_objects C ent solve rank) diagram o entries pre tar op opens wait H1 H2 Hw Hlen) as A2.
  set (items := tagged (map (fun kv => (fst kv, iterable (snd kv) opens)) (combos_dict els o entries pre tar op))) in *.
  assert (In_items : forall k r p, In (k, (r, p)) items -> fit r p).
  { intros k r p I. apply Hfit. unfold items, tagged in I. apply in_flat_map in I as (kv' & I1 & I2). apply in_map_iff in I1 as (kv & <- & I1).
    cbn [fst snd] in I2. apply in_map_iff in I2 as (rp & Erp & I2). injection Erp as <- <-. apply in_flat_map. exists kv. split; [exact I1|exact I2]. }
  assert (S : cat (fun kp => react_pair (basic_react fwd bwd) o pre tar op (diagram (fst kp)) (snd kp)) items
    = bind (cat (fun kp => keep_pair (see_object C) (react_objects C ent solve rank) o pre tar op (diagram (fst kp)) (snd kp)) items) (fun xs => Ok (map (see_object C) xs))).
  { pose proof (keep_seen (see_object C) (react_objects C ent solve rank (D := D)) (basic_react fwd bwd) o pre tar op
      (map (fun kp => (diagram (fst kp), snd kp)) items)) as K. rewrite !cat_map in K. cbn [fst snd] in K. apply K. intros t [r p] I. apply in_map_iff in I as ([k [r' p']] & Ek & I). cbn [fst snd] in Ek. injection Ek as <- <- <-.
    destruct (In_items k r' p' I) as ((I1 & I2) & _). cbn [fst snd]. destruct (real_balance_ok C ent solve rank r' p' I1 I2) as (x & Ex & _).
    unfold basic_react, forward_rxn, backward_rxn, react_objects. rewrite Ex. reflexivity. }
  rewrite S in A1. destruct (cat (fun kp => keep_pair _ _ _ _ _ _ _ _) items) as [ys|] eqn:Ey; [|destruct A1]. cbn [bind agree] in A1.
  destruct (keep_rxns _ _ _ _ _ _ _ _ _ _ _ _ _) as [xs|]; [|destruct A2]. cbn [agree] in A2.
  exists xs, out. split; [reflexivity|]. split; [exact HA|]. split; [eapply perm_trans; [exact A1|]; apply Permutation_map, Permutation_sym; exact A2|].
  intros x Hx. apply (Permutation_in x A2) in Hx. destruct (cat_in _ _ _ _ Ey Hx) as ([k [r p]] & l & Hk & El & Hl). cbn [fst snd] in El. pose proof (In_items k r p Hk) as I1.
  unfold keep_pair in El. cbn [fst snd] in El. destruct (consider o pre tar op r p) eqn:Ec; [|injection El as <-; destruct Hl].
  destruct (react_objects C ent solve rank r p (diagram k)) as [l0|] eqn:E0; [|discriminate]. cbn [bind] in El. injection El as <-. apply filter_In in Hl as [Hl Ha].
  exists r, p, (diagram k), l0. split; [exact I1|]. split; [exact (consider_disjoint _ _ _ _ _ _ Ec)|]. split; [exact E0|]. split; [exact Hl|exact Ha].
Qed.

Lemma kind_spec : exists xs, keep_rxns (see_object C) els iterable iter_length (react_objects C ent solve rank) diagram o entries pre tar op opens wait = Ok xs
  /\ (forall x, In x xs -> exists r p t l, fit r p /\ disjoint r p
     /\ react_objects C ent solve rank r p (t : D) = Ok l /\ In x l /\ accept (en_options en) (en_precursors en) (en_targets en) op (see_object C x) = true)
  /\ (forall x, In x xs -> plain (set_rxn C x) /\ (forall e, In e (x_entries (set_rxn C x)) -> exists i, In i entries /\ e = here i)
      /\ exists r p, (reach r p /\ disjoint r p /\ system_ok els o oe r /\ option_met (o_pfunc o) pre op r /\ option_met (o_tfunc o) tar op p) /\ turns C ent r p (set_rxn C x))
  /\ forall r p, (reach r p /\ disjoint r p /\ system_ok els o oe r /\ option_met (o_pfunc o) pre op r /\ option_met (o_tfunc o) tar op p) ->
      determined C (formula C ent) r p -> exists x, In x xs /\ turns C ent r p (set_rxn C x).
Proof.
  pose proof Us as (Hch & H1 & H2 & Hc). destruct seen_kind as (xs & out & Ex & HA & Hp & Hobj). exists xs. split; [exact Ex|]. split; [exact Hobj|].
  assert (Hx : forall x, In x xs -> er_errors (see_object C x) = Some 0 /\ wanted o pre tar op (see_object C x) /\
      exists r p a b, fit r p /\ disjoint r p /\ (a = r /\ b = p \/ a = p /\ b = r) /\ turns C ent a b (set_rxn C x)
      /\ x_entries (set_rxn C x) = map here (r ++ p) /\ length (x_coeffs (set_rxn C x)) = length (r ++ p) /\ (forall c, In c (x_coeffs (set_rxn C x)) -> ~ (c == 0)%Q)
      /\ EnumSpec.same_set (er_reactants (see_object C x)) a /\ EnumSpec.same_set (er_products (see_object C x)) b).
  { intros x Hx. destruct (Hobj x Hx) as (r & p & t & l & Hf & Dj & El & Hl & Ha). apply accept_iff in Ha as [(_ & _ & He & _) Wn]; [|exact Hch]. split; [exact He|]. split; [exact Wn|].
    destruct (object_turns C W ent Hid solve rank (entry_solve_length C ent) r p t l x (proj1 (proj1 Hf)) (proj2 (proj1 Hf)) El Hl He) as (a & b & Hab & T & E1 & E2 & E3).
    assert (L : length (coeffs (c_base (ro_rxn x))) = length (c_entries (ro_rxn x))).
    { unfold set_rxn in E1, E2. cbn [x_entries x_coeffs] in E1, E2. rewrite E2. apply (f_equal (@length _)) in E1. rewrite !map_length in E1. symmetry. exact E1. }
    destruct (seen_sides C ent x a b L T) as [S1 S2]. exists r, p, a, b. repeat (split; [assumption|]). assumption. }
  pose proof (real_good_balance C W Hbig ent Hid solve rank (entry_solve_length C ent)) as Good.
  split.
  - intros x Ix. destruct (Hx x Ix) as (He & Wn & r & p & a & b & (_ & (Nr & Np) & Ir & Ip) & Dj & Hab & T & E1 & E2 & E3 & S1 & S2). split; [|split].
    + split; [rewrite E1|split; [rewrite E1, map_length; exact E2|exact E3]]. apply FinFun.Injective_map_NoDup; [exact here_inj|].
      apply NoDup_app_intro; [exact Nr|exact Np|exact Dj].
    + intros e I. rewrite E1 in I. apply in_map_iff in I as (i & <- & I). exists i. split; [|reflexivity].
      apply in_app_iff in I as [I|I]; [exact (Ir i I)|exact (Ip i I)].
    + destruct HA as (pairs & outs & _ & Hpairs & Hpick & Hperm).
      assert (Is : In (see_object C x) out) by (apply (Permutation_in _ (Permutation_sym Hp)); apply in_map; exact Ix).
      apply (Permutation_in _ Hperm) in Is. apply in_concat in Is as (rs & Hrs & Is). destruct (Forall2_In_r _ _ _ _ Hpick Hrs) as ([r1 p1] & Hpr & Hpk). cbn [fst snd] in Hpk.
      assert (Pk : forall (l l' : list erxn) P, picks P l l' -> forall y, In y l' -> In y l).
      { clear. intros l l' P H. induction H; intros y I; [destruct I|destruct I as [->|I]; [left; reflexivity|right; apply IHpicks; exact I]|right; apply IHpicks; exact I]. }
      apply (Pk _ _ _ Hpk) in Is. apply Hpairs in Hpr as (B & Dj1 & Sys). destruct (Hne r1 p1 B) as [B1 B2]. destruct (Good r1 p1 B1 B2) as (R1 & R2 & R3 & G).
      assert (Dj2 : disjoint p1 r1) by (intros y Y1 Y2; exact (Dj1 y Y2 Y1)).
      destruct Is as [Is|[Is|[]]].
      * rewrite <- Is in He. destruct (G He) as (G1 & G2 & G3). rewrite Is in G1, G2. exists r1, p1. split.
        -- split; [apply Hreach; [exact Dj1|left; exact B]|]. split; [exact Dj1|]. split; [exact Sys|]. destruct Wn as [W1 W2]. split; [exact (option_met_same _ _ _ _ _ G1 W1)|exact (option_met_same _ _ _ _ _ G2 W2)].
        -- apply (turns_same C ent a b); [exact (same_trans _ _ _ (same_sym _ _ S1) G1)|exact (same_trans _ _ _ (same_sym _ _ S2) G2)|exact T].
      * rewrite <- Is, R3 in He. destruct (G He) as (G1 & G2 & G3). rewrite <- R1, Is in G2. rewrite <- R2, Is in G1. exists p1, r1. split.
        -- split; [apply Hreach; [exact Dj2|right; exact B]|]. split; [exact Dj2|]. split; [exact (system_same _ _ _ _ G3 Sys)|]. destruct Wn as [W1 W2]. split; [exact (option_met_same _ _ _ _ _ G2 W1)|exact (option_met_same _ _ _ _ _ G1 W2)].
        -- apply (turns_same C ent a b); [exact (same_trans _ _ _ (same_sym _ _ S1) G2)|exact (same_trans _ _ _ (same_sym _ _ S2) G1)|exact T].
  - intros r p (Hr & Dj & Sys & O1 & O2) Hdet. apply (Hreach r p Dj) in Hr.
    assert (N : r <> [] /\ p <> []) by (destruct Hr as [Hr|Hr]; apply Hne in Hr as [N1 N2]; split; assumption). destruct N as [N1 N2].
    destruct (determined_among C W ent Hbig Hid o pre tar op _ out r p Hc HA N1 N2 Hdet O1 O2) as (y & Iy & Y1 & Y2 & _).
    { destruct Hr as [Hr|Hr]; [left; split; [exact Hr|split; assumption]|right; intros G3]. split; [exact Hr|]. split; [intros z Z1 Z2; exact (Dj z Z2 Z1)|].
      apply (system_same o oe r p); [intros z; symmetry; apply G3|exact Sys]. }
    apply (Permutation_in _ Hp) in Iy. apply in_map_iff in Iy as (x & <- & Ix). exists x. split; [exact Ix|].
    destruct (Hx x Ix) as (_ & _ & r0 & p0 & a & b & _ & _ & _ & T & _ & _ & _ & S1 & S2).
    apply (turns_same C ent a b); [exact (same_trans _ _ _ (same_sym _ _ S1) Y1)|exact (same_trans _ _ _ (same_sym _ _ S2) Y2)|exact T].
Qed.
End Kind.

(* the two ways of pairing *)
Lemma combo_fit n r p : combo entries n r -> combo entries n p -> fit r p.
Proof.
  intros [S1 L1] [S2 L2]. split; [split; [intros ->; cbn in L1; lia|intros ->; cbn in L2; lia]|]. split; [split; apply (subseq_NoDup _ entries); assumption|].
  split; intros x; apply subseq_In; assumption.
Qed.
Lemma open_fit op n r p : NoDup op -> incl op entries -> takes_open op entries n r p -> fit r p.
Proof.
  intros No Io ((Cr & _) & c & oc & (Cc & Dc) & (So & Ne) & ->). destruct (combo_fit n r c Cr Cc) as ((N1 & N2) & (N3 & N4) & I1 & I2).
  split; [split; [exact N1|intros E; apply app_eq_nil in E as [E _]; contradiction]|]. split; [split; [exact N3|]|].
  - apply NoDup_app_intro; [exact N4|exact (subseq_NoDup _ _ So No)|]. intros x Hx Hy. apply (Dc x Hx). exact (subseq_In _ _ _ So Hy).
  - split; [exact I1|]. intros x Hx. apply in_app_iff in Hx as [Hx|Hx]; [apply I2; exact Hx|apply Io; exact (subseq_In _ _ _ So Hx)].
Qed.
Lemma basic_reach n r p : disjoint r p -> (combo entries n r /\ combo entries n p <-> basic_pair entries n r p \/ basic_pair entries n p r).
Proof.
  intros Dj. split; [|intros [(A & B & _)|(A & B & _)]; split; assumption]. intros [A B].
  assert (Diff : r <> p). { intros ->. destruct B as [_ L]. destruct p as [|x p]; [cbn in L; lia|]. apply (Dj x); left; reflexivity. }
  destruct (two_of (limited_powerset entries n) r p) as [Sub|Sub]; [apply in_limited_powerset; exact A|apply in_limited_powerset; exact B|exact Diff| |]; apply basic_pair_iff in Sub; auto.
Qed.
Lemma solid_combo op n c : combo (minus entries op) n c <-> combo entries n c /\ disjoint c op.
Proof.
  unfold combo. unfold minus. rewrite subseq_filter, Forall_forall. split.
  - intros ((A & B) & L). split; [split; assumption|]. intros x Hx Hy. apply B, negb_true_iff, not_true_iff_false in Hx. apply Hx, inb_iff. exact Hy.
  - intros ((A & L) & Dj). split; [split; [exact A|]|exact L]. intros x Hx. apply negb_true_iff, not_true_iff_false. rewrite inb_iff. apply Dj. exact Hx.
Qed.
Lemma open_reach op n r p : takes_open op entries n r p <->
  exists solids, NoDup solids /\ (forall e, In e solids <-> In e entries /\ ~ In e op) /\ subseq solids entries /\ open_pair solids op n r p.
Proof.
  split.
  - intros (Hr & c & oc & Hc & Ho & ->). exists (minus entries op). split; [apply NoDup_filter; exact Hn|]. split; [intros e; apply minus_in|].
    split; [apply (subseq_filter (fun x => negb (inb x op)) (minus entries op) entries), subseq_refl|]. exists c, oc. split; [apply solid_combo; exact Hr|]. split; [apply solid_combo; exact Hc|]. split; [reflexivity|exact Ho].
  - intros (sol & _ & N2 & N3 & c & oc & Hr & Hc & -> & Ho).
    assert (G : forall c, combo sol n c -> combo entries n c /\ disjoint c op).
    { intros l (S & L). split; [split; [exact (SolverTopProofs.subseq_trans _ _ _ S N3)|exact L]|]. intros x Hx. apply (subseq_In _ _ _ S), N2 in Hx. tauto. }
    split; [apply G; exact Hr|]. exists c, oc. split; [apply G; exact Hc|]. split; [exact Ho|reflexivity].
Qed.
Lemma open_code_pairs o pre tar op r p : In (r, p) (flat_map (fun kv => open_iterable (snd kv) (open_combos op)) (combos_dict els o entries pre tar op)) ->
  takes_open op entries (o_n o) r p.
Proof.
  intros H. apply in_flat_map in H as ([k cs] & Hk & Hi). cbn [snd] in Hi. unfold combos_dict, filter_dict in Hk. apply filter_In in Hk as [Hk _].
  destruct (group_spec els (flat_map els op) (limited_powerset (minus entries op) (o_n o))) as (_ & G2 & _). destruct (G2 k cs Hk) as [_ Ecs].
  apply open_iterable_in in Hi as (Hr & c & oc & Hc & Ho & _ & ->). rewrite Ecs in Hr, Hc. apply filter_In in Hr as [Hr _], Hc as [Hc _]. apply combo_iff in Hr, Hc.
  split; [apply solid_combo; exact Hr|]. exists c, oc. split; [apply solid_combo; exact Hc|]. split; [|reflexivity].
  unfold open_combos in Ho. apply in_limited_powerset in Ho as [S L]. split; [exact S|]. intros ->. cbn in L. lia.
Qed.

Lemma open_same phases : phases_open C ent entries phases = filter (fun i => if in_dec Nat.eq_dec (red C (e_comp (ent i))) phases then true else false) entries.
Proof.
  apply filter_ext. intros i. apply eq_true_iff_eq. rewrite existsb_exists. destruct (in_dec _ _ _) as [I|I]; split; try congruence.
  - intros _. exists (red C (e_comp (ent i))). split; [exact I|apply Nat.eqb_refl].
  - intros (y & Hy & E). apply Nat.eqb_eq in E. subst y. contradiction.
Qed.

Lemma enumerated_full en : usable en -> exists xs, enumerated C ent solve rank diagram wait entries en = Ok xs
  /\ (forall x, In x xs -> exists r p t l, fit r p /\ disjoint r p
     /\ react_objects C ent solve rank r p (t : D) = Ok l /\ In x l /\ accept (en_options en) (en_precursors en) (en_targets en) (open_ones C ent entries en) (see_object C x) = true)
  /\ (forall x, In x xs -> plain (set_rxn C x) /\ (forall e, In e (x_entries (set_rxn C x)) -> exists i, In i entries /\ e = here i)
      /\ exists r p, looks_at C ent entries en r p /\ turns C ent r p (set_rxn C x))
  /\ forall r p, looks_at C ent entries en r p -> determined C (formula C ent) r p -> exists x, In x xs /\ turns C ent r p (set_rxn C x).
Proof.
  intros Us. pose proof Us as (Hch & H1 & H2 & Hc). unfold enumerated, looks_at, in_reach, open_ones. destruct (en_open en) as [phases|].
  - cbv zeta. rewrite open_same. set (op := filter _ entries).
    assert (No : NoDup op) by (apply NoDup_filter; exact Hn). assert (Io : incl op entries) by (intros x Hx; apply filter_In in Hx; tauto).
    apply (kind_spec en Us op (open_combos op) open_iterable open_iter_length (fun cs => open_iter_length_ok cs _)
      (fun r p H => open_fit op _ r p No Io (open_code_pairs _ _ _ _ _ _ H)) (takes_open op entries (o_n (en_options en)))).
    + destruct (open_real_complete C ent solve rank diagram (en_options en) entries (en_precursors en) (en_targets en) op wait W Hbig Hid (entry_solve_length C ent) Hn No
        ltac:(intros e [He|He]; apply Hel; [exact He|exact (Io e He)]) Hch H1 H2 Hw) as (out & E & HA).
      exists out. split; [exact E|]. eapply all_reactions_kind; [|exact HA]. intros r p. cbn beta. rewrite open_reach. reflexivity.
    + intros r p Dj. reflexivity.
    + intros r p H. destruct (open_fit op _ r p No Io H) as (N & _). exact N.
  - apply (kind_spec en Us [] [] basic_iterable basic_iter_length (fun cs => basic_iter_length_ok cs [])
      (fun r p H => let c := basic_code_pairs els (en_options en) entries (en_precursors en) (en_targets en) r p Hn Hel H in combo_fit _ r p (proj1 c) (proj2 c))
      (basic_pair entries (o_n (en_options en)))).
    + exact (basic_real_complete C ent solve rank diagram (en_options en) entries (en_precursors en) (en_targets en) wait W Hbig Hid (entry_solve_length C ent) Hn Hel Hch H1 H2 Hw).
    + intros r p Dj. apply basic_reach. exact Dj.
    + intros r p (A & B & _). destruct (combo_fit _ r p A B) as (N & _). exact N.
Qed.
Lemma enumerated_spec en : usable en -> exists xs, enumerated C ent solve rank diagram wait entries en = Ok xs
  /\ (forall x, In x xs -> plain (set_rxn C x) /\ (forall e, In e (x_entries (set_rxn C x)) -> exists i, In i entries /\ e = here i)
      /\ exists r p, looks_at C ent entries en r p /\ turns C ent r p (set_rxn C x))
  /\ forall r p, looks_at C ent entries en r p -> determined C (formula C ent) r p -> exists x, In x xs /\ turns C ent r p (set_rxn C x).
Proof. intros Us. destruct (enumerated_full en Us) as (xs & E & _ & H). exists xs. split; [exact E|exact H]. Qed.
Lemma enumerated_seen en : usable en -> exists xs, enumerated C ent solve rank diagram wait entries en = Ok xs
  /\ forall x, In x xs -> exists r p t l, fit r p /\ react_objects C ent solve rank r p (t : D) = Ok l /\ In x l.
Proof.
  intros Us. destruct (enumerated_full en Us) as (xs & E & H & _). exists xs. split; [exact E|]. intros x Ix. destruct (H x Ix) as (r & p & t & l & A & _ & B & I & _). exists r, p, t, l. auto.
Qed.
End Enumerator.

(* --- reactions with the same sides --- *)
Definition same_sides (x y : srxn) : Prop := (forall e, uses x e <-> uses y e) /\ (forall e, makes x e <-> makes y e).
Lemma same_sides_trans x y z : same_sides x y -> same_sides y z -> same_sides x z.
Proof. intros [U M] [U' M']. split; intros e; [rewrite U; apply U'|rewrite M; apply M']. Qed.
Lemma multiples_sides x y : multiples x y -> same_sides x y.
Proof.
  intros (k & l & K & (A & B) & H).
  assert (G : forall e c, takes_part x e c <-> exists d, In (e, c, d) l).
  { intros e c. unfold takes_part. split.
    - intros I. apply (Permutation_in _ (Permutation_sym A)) in I. apply in_map_iff in I as ([[e' c'] d] & E & I). cbn in E. injection E as -> ->. exists d. exact I.
    - intros (d & I). apply (Permutation_in _ A). apply in_map_iff. exists (e, c, d). split; [reflexivity|exact I]. }
  assert (G' : forall e d, takes_part y e d <-> exists c, In (e, c, d) l).
  { intros e d. unfold takes_part. split.
    - intros I. apply (Permutation_in _ (Permutation_sym B)) in I. apply in_map_iff in I as ([[e' c] d'] & E & I). cbn in E. injection E as -> ->. exists c. exact I.
    - intros (c & I). apply (Permutation_in _ B). apply in_map_iff. exists (e, c, d). split; [reflexivity|exact I]. }
  split; intros e; split.
  - intros (c & T & N). apply G in T as (d & I). exists d. split; [apply G'; exists c; exact I|]. rewrite (H _ _ _ I). nra.
  - intros (d & T & N). apply G' in T as (c & I). exists c. split; [apply G; exists d; exact I|]. rewrite (H _ _ _ I) in N. nra.
  - intros (c & T & N). apply G in T as (d & I). exists d. split; [apply G'; exists c; exact I|]. rewrite (H _ _ _ I). nra.
  - intros (d & T & N). apply G' in T as (c & I). exists c. split; [apply G; exists d; exact I|]. rewrite (H _ _ _ I) in N. nra.
Qed.
Lemma turns_sided C ent r p r' p' x y : turns C ent r p x -> turns C ent r' p' y -> same_sides x y -> turns C ent r p y.
Proof.
  intros (U & M & _) (_ & _ & T & N) [U' M']. split; [|split; [|split; assumption]]; intros e; [rewrite <- U'; apply U|rewrite <- M'; apply M].
Qed.

Lemma filtered_keeps argsort shuffle s s' : filter_duplicates argsort shuffle s [] = Ok s' -> r_entries s' = r_entries s /\ r_open s' = r_open s /\ r_chempot s' = r_chempot s.
Proof.
  intros Ef. unfold filter_duplicates in Ef. destruct (filter_duplicates_idxs argsort shuffle s []) as [ix|]; [|discriminate]. cbn [bind] in Ef.
  unfold get_rxn_set_by_indices in Ef. repeat match type of Ef with bind ?x _ = Ok _ => destruct x; [cbn [bind] in Ef|discriminate] end.
  injection Ef as <-. split; [|split]; reflexivity.
Qed.

Lemma sharp_incl l l' : incl l' l -> sharp l -> sharp l'.
Proof. intros I S a b Ha Hb. apply S; apply I; assumption. Qed.

Lemma mapped_once {A B} (f : A -> B) l x y : NoDup (map f l) -> In x l -> In y l -> f x = f y -> x = y.
Proof.
  induction l as [|a l IH]; intros N Ix Iy E; [destruct Ix|]. cbn [map] in N. inversion N as [|? ? N1 N2]; subst.
  destruct Ix as [->|Ix], Iy as [->|Iy]; [reflexivity| | |exact (IH N2 Ix Iy E)].
  - contradiction N1. rewrite E. apply in_map. exact Iy.
  - contradiction N1. rewrite <- E. apply in_map. exact Ix.
Qed.

(* The sets of any kind of enumerator, given what its reactions are. *)
Section General.
Variable C : chem.
Variable ent : nat -> entry.
Hypothesis Hid : forall i, e_id (ent i) = i.
Variable entries : list nat.
Hypothesis Hn : NoDup entries.
Hypothesis Hne : entries <> [].
Variable arrange : list sentry -> list sentry.
Hypothesis Harr : arranges arrange.
Variable argsort : list Q -> list nat.
Hypothesis Harg : forall l, Permutation (argsort l) (seq 0 (length l)).
Variable shuffle : list nat -> list nat.
Hypothesis Hsh : forall l, Permutation (shuffle l) l.
Notation here := (in_set C ent).
Context {En : Type}.
Variable outs_of : En -> result (list object).
Variable dup : En -> bool.
Variable ok : En -> Prop.
Variables looks finds : En -> list nat -> list nat -> Prop.
Hypothesis Hspec : forall en, ok en -> exists xs, outs_of en = Ok xs
  /\ (forall x, In x xs -> plain (set_rxn C x) /\ (forall e, In e (x_entries (set_rxn C x)) -> exists i, In i entries /\ e = here i) /\ exists r p, looks en r p /\ turns C ent r p (set_rxn C x))
  /\ forall r p, finds en r p -> exists x, In x xs /\ turns C ent r p (set_rxn C x).
Notation set_of en := (set_of_objects C ent arrange argsort shuffle entries (dup en) (outs_of en)).

Definition general_object (en : En) (x : srxn) : Prop :=
  plain x /\ (forall e, In e (x_entries x) -> exists i, In i entries /\ e = here i) /\ exists r p, looks en r p /\ turns C ent r p x.

Lemma here_uid x y : (exists i, x = here i) -> (exists i, y = here i) -> uid x = uid y -> x = y.
Proof. intros (i & ->) (j & ->) E. cbn in E. congruence. Qed.

Lemma general_set_made en : ok en -> (forall xs, outs_of en = Ok xs -> sharp (map (set_rxn C) xs)) ->
  exists s out, set_of en = Ok s
  /\ (well_formed s /\ get_rxns s = Ok out /\ r_entries s = arrange (map here entries) /\ r_open s = None /\ r_chempot s = 0%Q)
  /\ (exists xs, outs_of en = Ok xs /\ incl out (map (set_rxn C) xs))
  /\ (forall x, In x out -> general_object en x)
  /\ forall r p, finds en r p -> exists x, In x out /\ turns C ent r p x.
Proof.
  intros Us Sh. destruct (Hspec en Us) as (xs & E & Hx & Hf). specialize (Sh xs E).
  unfold set_of_objects. rewrite E. cbn [bind].
  assert (Ee : map (fun i => set_entry C (ent i)) entries = map here entries) by (apply map_ext; intros i; apply set_entry_here; exact Hid). rewrite Ee.
  set (rxns := map (set_rxn C) xs) in *. set (es := map here entries) in *.
  assert (Hes : forall e, In e es -> exists i, e = here i) by (intros e I; apply in_map_iff in I as (i & <- & _); exists i; reflexivity).
  assert (Hin : forall r e, In r rxns -> In e (x_entries r) -> In e es).
  { intros r e Ir Ie. apply in_map_iff in Ir as (x & <- & Ix). destruct (Hx x Ix) as (_ & H & _). destruct (H e Ie) as (i & Hi & ->). apply in_map. exact Hi. }
  assert (Gv : given es rxns = es). { unfold given, es. destruct entries; [contradiction|reflexivity]. }
  assert (Cm : common_mu rxns = None). { unfold common_mu, rxns. destruct xs as [|x xs']; reflexivity. }
  assert (Sm : spec_mu rxns None 0%Q = (None, 0%Q)) by (unfold spec_mu; rewrite Cm; reflexivity).
  destruct (from_rxns_spec arrange rxns es None 0%Q Harr) as (s & out & Ef & Wf & Gs & Hp & _ & _ & Es & Em).
  { right. exact Hin. }
  { intros x y Ix Iy. apply here_uid; [apply in_app_iff in Ix as [Ix|Ix]|apply in_app_iff in Iy as [Iy|Iy]]; try (apply Hes; assumption).
    - apply in_flat_map in Ix as (r & Ir & Ix). apply Hes. exact (Hin r x Ir Ix).
    - apply in_flat_map in Iy as (r & Ir & Iy). apply Hes. exact (Hin r y Ir Iy). }
  { intros r Ir. apply in_map_iff in Ir as (x & <- & Ix). destruct (Hx x Ix) as ((_ & L & _) & _). exact L. }
  pose proof Ef as Ef'. rewrite from_rxns_form in Ef'; [|exact Harr|rewrite Gv; exact Hin|rewrite Gv; intros x y Ix Iy; apply here_uid; apply Hes; assumption].
  rewrite Sm in Ef'. cbn [fst snd] in Ef'.
  assert (So : r_open s = None) by (inversion Ef'; reflexivity). assert (Sc : r_chempot s = 0%Q) by (inversion Ef'; reflexivity). clear Ef'.
  rewrite Sm in Em. rewrite Em, with_mu_id in Hp by (intros r Ir; apply in_map_iff in Ir as (x & <- & _); reflexivity).
  rewrite Gv in Es. rewrite Ef. cbn [bind].
  assert (Mem : forall r, In r out <-> In r rxns) by (intros r; split; apply Permutation_in; [exact Hp|apply Permutation_sym; exact Hp]).
  assert (Good : forall x, In x out -> general_object en x).
  { intros x I. apply Mem in I. apply in_map_iff in I as (y & <- & Iy). exact (Hx y Iy). }
  assert (Comp : forall r p, finds en r p -> exists x, In x out /\ turns C ent r p x).
  { intros r p L. destruct (Hf r p L) as (x & Ix & T). exists (set_rxn C x). split; [apply Mem, in_map; exact Ix|exact T]. }
  destruct (dup en).
  - assert (Ns : NoDup (r_entries s)) by (rewrite Es; apply Harr).
    destruct (no_ensured_families argsort shuffle Harg Hsh s Wf Ns out Gs) as (s' & out' & E' & W' & G' & (rest & Pr) & Fam & _).
    + intros r Ir. apply Good. exact Ir.
    + apply (sharp_incl rxns); [intros r Ir; apply Mem; exact Ir|exact Sh].
    + assert (Sub : forall x, In x out' -> In x out) by (intros x I; apply (Permutation_in _ (Permutation_sym Pr)), in_app_iff; left; exact I).
      destruct (filtered_keeps _ _ _ _ E') as (K1 & K2 & K3). exists s', out'. split; [exact E'|]. split; [split; [exact W'|split; [exact G'|split; [congruence|split; congruence]]]|].
      split; [exists xs; split; [reflexivity|]; intros x I; apply Mem, Sub; exact I|]. split; [intros x I; apply Good, Sub; exact I|].
      intros r p L. destruct (Comp r p L) as (x & Ix & T). destruct (Fam x Ix) as (x' & Ix' & M). exists x'. split; [exact Ix'|].
      destruct (Good x' (Sub x' Ix')) as (_ & _ & r' & p' & _ & T'). exact (turns_sided C ent r p r' p' x x' T T' (multiples_sides _ _ M)).
  - exists s, out. split; [reflexivity|]. split; [split; [exact Wf|split; [exact Gs|split; [exact Es|split; assumption]]]|].
    split; [exists xs; split; [reflexivity|]; intros x I; apply Mem; exact I|]. split; assumption.
Qed.

Definition general_sharp_enumerators (ens : list En) : Prop :=
  forall outs, Forall2 (fun en xs => outs_of en = Ok xs) ens outs -> sharp (map (set_rxn C) (concat outs)).

Lemma general_all_made ens : (forall en, In en ens -> ok en) -> exists outs, Forall2 (fun en xs => outs_of en = Ok xs) ens outs.
Proof.
  induction ens as [|en ens IH]; intros H; [exists []; constructor|]. destruct IH as (outs & F); [intros e I; apply H; right; exact I|].
  destruct (Hspec en (H en (or_introl eq_refl))) as (xs & E & _). exists (xs :: outs). constructor; assumption.
Qed.

Lemma general_sets_made ens outs : (forall en, In en ens -> ok en) -> Forall2 (fun en xs => outs_of en = Ok xs) ens outs -> sharp (map (set_rxn C) (concat outs)) ->
  exists sets rss, map (fun en => set_of en) ens = map Ok sets /\ length sets = length ens
  /\ Forall2 (fun s rs => well_formed s /\ get_rxns s = Ok rs /\ r_entries s = arrange (map here entries) /\ r_open s = None /\ r_chempot s = 0%Q) sets rss
  /\ incl (concat rss) (map (set_rxn C) (concat outs))
  /\ (forall x, In x (concat rss) -> exists en, In en ens /\ general_object en x)
  /\ forall en r p, In en ens -> finds en r p -> exists x, In x (concat rss) /\ turns C ent r p x.
Proof.
  intros Us F. revert Us. induction F as [|en xs ens outs E F IH]; intros Us Sh.
  - exists [], []. split; [reflexivity|]. split; [reflexivity|]. split; [constructor|]. split; [intros x []|]. split; [intros x []|intros en r p []].
  - cbn [concat] in Sh. rewrite map_app in Sh. destruct IH as (sets & rss & E1 & E2 & F3 & I4 & G5 & C6); [intros e I; apply Us; right; exact I|apply (sharp_incl _ _ (incl_appr _ (incl_refl _)) Sh)|].
    destruct (general_set_made en (Us en (or_introl eq_refl))) as (s & out & M1 & M2 & (ys & M3 & M3') & M4 & M5).
    { intros ys Ey. assert (ys = xs) by congruence. subst ys. apply (sharp_incl _ _ (incl_appl _ (incl_refl _)) Sh). }
    assert (ys = xs) by congruence. subst ys.
    exists (s :: sets), (out :: rss). cbn [map concat length]. split; [rewrite M1, E1; reflexivity|]. split; [rewrite E2; reflexivity|]. split; [constructor; assumption|].
    split; [|split].
    + rewrite map_app. intros x I. apply in_app_iff in I as [I|I]; apply in_app_iff; [left; apply M3'|right; apply I4]; exact I.
    + intros x I. apply in_app_iff in I as [I|I]; [exists en; split; [left; reflexivity|apply M4; exact I]|]. destruct (G5 x I) as (e & Ie & G). exists e. split; [right; exact Ie|exact G].
    + intros e r p [<-|Ie] L.
      * destruct (M5 r p L) as (x & Ix & T). exists x. split; [apply in_app_iff; left; exact Ix|exact T].
      * destruct (C6 e r p Ie L) as (x & Ix & T). exists x. split; [apply in_app_iff; right; exact Ix|exact T].
Qed.

Lemma general_enumeration_from ens : ens <> [] -> (forall en, In en ens -> ok en) -> general_sharp_enumerators ens ->
  exists s out, run_enumerators argsort shuffle (map (fun en => set_of en) ens) = Ok (Some s) /\ get_rxns s = Ok out /\ r_entries s = arrange (map here entries)
  /\ (forall x, In x out -> exists en, In en ens /\ general_object en x)
  /\ (forall en r p, In en ens -> finds en r p -> exists x, In x out /\ turns C ent r p x)
  /\ ForallOrdPairs (fun x y => ~ multiples x y) out /\ sharp out /\ (forall x, In x out -> x_mu x = None)
  /\ exists outs, Forall2 (fun en xs => outs_of en = Ok xs) ens outs /\ incl out (map (set_rxn C) (concat outs)).
Proof.
  intros Hens Us Sh. destruct (general_all_made ens Us) as (outs & F). specialize (Sh outs F).
  destruct (general_sets_made ens outs Us F Sh) as (sets & rss & E1 & E2 & F3 & I4 & G5 & C6). rewrite E1.
  assert (Sh' : sharp (concat rss)) by exact (sharp_incl _ _ I4 Sh).
  destruct (run_spec argsort shuffle Harg Hsh (arrange (map here entries)) None 0%Q sets rss) as (s & out & R1 & R2 & R3 & (rest & R4) & R5 & R6).
  - intros ->. destruct ens; [contradiction|discriminate E2].
  - apply Harr.
  - exact F3.
  - intros r Ir. destruct (G5 r Ir) as (en & _ & P & _). exact P.
  - exact Sh'.
  - assert (Sub : incl out (concat rss)) by (intros x I; apply (Permutation_in _ (Permutation_sym R4)), in_app_iff; left; exact I).
    exists s, out. split; [exact R1|]. split; [exact R2|]. split; [exact R3|]. split; [intros x I; apply G5, Sub; exact I|]. split; [|split; [exact R6|split; [exact (sharp_incl _ _ Sub Sh')|split; [intros x I; apply Sub, I4 in I; apply in_map_iff in I as (o & <- & _); reflexivity|exists outs; split; [exact F|intros x I; apply I4, Sub; exact I]]]]].
    intros en r p Ie L. destruct (C6 en r p Ie L) as (x & Ix & T). destruct (R5 x Ix) as (x' & Ix' & M). exists x'. split; [exact Ix'|].
    destruct (G5 x' (Sub x' Ix')) as (en' & _ & _ & _ & r' & p' & _ & T'). exact (turns_sided C ent r p r' p' x x' T T' (multiples_sides _ _ M)).
Qed.

Theorem general_enumeration_spec ens : ens <> [] -> (forall en, In en ens -> ok en) -> general_sharp_enumerators ens ->
  exists s out, run_enumerators argsort shuffle (map (fun en => set_of en) ens) = Ok (Some s) /\ get_rxns s = Ok out /\ r_entries s = arrange (map here entries)
  /\ (forall x, In x out -> exists en, In en ens /\ general_object en x)
  /\ (forall en r p, In en ens -> finds en r p -> exists x, In x out /\ turns C ent r p x)
  /\ ForallOrdPairs (fun x y => ~ multiples x y) out /\ sharp out /\ (forall x, In x out -> x_mu x = None).
Proof. intros Hens Us Sh. destruct (general_enumeration_from ens Hens Us Sh) as (s & out & H1 & H2 & H3 & H4 & H5 & H6 & H7 & H8 & _). exists s, out. repeat (split; [assumption|]). assumption. Qed.

(* --- the network --- *)
Variable cpus : nat.
Hypothesis Hcpus : 2 <= cpus.
Variable nwait : nat -> list (nat * list (option (list nat)) * result (list nat)) ->
  list (nat * list (option (list nat)) * result (list nat)) * list (nat * list (option (list nat)) * result (list nat)).
Hypothesis Hnw : valid_schedule nwait.
Variable epa : nat -> Q.
Variable cost : srxn -> Q.
Hypothesis Hcost : forall r, (0 <= cost r)%Q.
Variable sp : (payload -> Q) -> list (nat * nat * payload) -> nat -> nat -> option (list nat).
Hypothesis Hsp : forall weight, shortest weight (sp weight).

Lemma route_leads (step : list nat -> list nat -> Prop) rs ps t l : (forall r p, step r p -> exists x, In x rs /\ turns C ent r p x) ->
  forall have (have' : sentry -> Prop), (forall i, In i have -> have' (here i)) -> route step ps t have l ->
  exists xs, incl xs rs /\ leads (map here ps) (here t) have' xs.
Proof.
  intros Hs. induction l as [|[r p] l IH]; intros have have' Hh R; cbn [route] in R.
  - exists []. split; [intros x []|]. cbn [leads]. apply Hh. exact R.
  - destruct R as (St & Hr & R). destruct (Hs r p St) as (x & Ix & (U & M & _)). destruct (IH p (makes x)) as (xs & I1 & I2); [|exact R|].
    + intros i Hi. apply M. exists i. split; [exact Hi|reflexivity].
    + exists (x :: xs). split; [intros y [<-|Hy]; [exact Ix|exact (I1 y Hy)]|]. cbn [leads]. split; [|exact I2].
      intros e Ue. apply U in Ue as (i & Hi & ->). destruct (Hr i Hi) as [G|G]; [left; apply in_map; exact G|right; apply Hh; exact G].
Qed.

Lemma turns_entries r p x i : turns C ent r p x -> In i (r ++ p) -> In (here i) (x_entries x).
Proof.
  intros (U & M & _) I. apply in_app_iff in I as [I|I].
  - destruct (proj2 (U (here i)) (ex_intro _ i (conj I eq_refl))) as (c & T & _). exact (in_combine_l _ _ _ _ T).
  - destruct (proj2 (M (here i)) (ex_intro _ i (conj I eq_refl))) as (c & T & _). exact (in_combine_l _ _ _ _ T).
Qed.
Lemma once_stable e l : NoDup (map (formula C ent) entries) -> incl l entries -> most_stable C ent e entries l.
Proof. intros N I i j Hi Hj E. left. apply (mapped_once (formula C ent) entries); [exact N|exact Hj|apply I; exact Hi|exact E]. Qed.
Definition found_by (ens : list En) (r p : list nat) : Prop := exists en, In en ens /\ finds en r p.
Theorem general_join_spec ens mk ps ts k : ens <> [] -> (forall en, In en ens -> ok en) -> general_sharp_enumerators ens ->
  incl (ps ++ ts) entries -> most_stable C ent epa entries (ps ++ ts) ->
  nm_precursors mk = Some (map (formula C ent) ps) -> ps <> [] -> nm_targets mk = Some (map (formula C ent) ts) -> ts <> [] -> nm_k mk = Some k -> 0 < k ->
  (forall i, In i (ps ++ ts) -> exists r p, found_by ens r p /\ In i (r ++ p)) ->
  exists w rs per, bind (run_enumerators argsort shuffle (map (fun en => set_of en) ens)) (search_set C ent arrange argsort shuffle cpus nwait epa cost sp mk) = Ok (w, rs, Some (concat per))
  /\ (forall x, In x rs -> plain x /\ exists en r p, In en ens /\ looks en r p /\ turns C ent r p x)
  /\ (forall r p, found_by ens r p -> exists x, In x rs /\ turns C ent r p x)
  /\ Forall2 (fun t pathways => pathways_to cost rs (map here ps) (here t) k pathways /\ ((exists l, route (found_by ens) ps t [] l) -> pathways <> [])) ts per.
Proof.
  intros Hens Us Sh Hincl Hform Ep Hps Et Hts Ek Hk Hin.
  destruct (general_enumeration_spec ens Hens Us Sh) as (s & out & E & G & _ & Good & Comp & _ & Sho & _). rewrite E. cbn [bind]. unfold search_set.
  assert (Comp' : forall r p, found_by ens r p -> exists x, In x out /\ turns C ent r p x).
  { intros r p (en & Ie & L). exact (Comp en r p Ie L). }
  assert (Hent : forall x e, In x out -> In e (x_entries x) -> exists i, In i entries /\ e = here i).
  { intros x e Ix Ie. destruct (Good x Ix) as (en & _ & _ & H & _). exact (H e Ie). }
  assert (Hlow : forall l l', (forall i, In i l -> In i (ps ++ ts)) -> Forall2 (lowest epa (concat [out])) (map (formula C ent) l) l' -> l' = map here l).
  { induction l as [|i l IH]; intros l' Hl F; cbn [map] in F; inversion F as [|f e fs l0 L F0]; subst; [reflexivity|]. rewrite (IH l0) by (try exact F0; intros j Hj; apply Hl; right; exact Hj). cbn [map]. f_equal.
    destruct L as (Lf & (x & Ix & Ie) & Lw). cbn [concat] in Ix, Lw. rewrite app_nil_r in Ix, Lw. destruct (Hent x e Ix Ie) as (j & Hj & ->). f_equal.
    cbn [form in_set] in Lf. pose proof (Hl i (or_introl eq_refl)) as Ii. destruct (Hform i j Ii Hj Lf) as [Ej|Lt]; [exact Ej|]. exfalso.
    destruct (Hin i Ii) as (r & p & Fd & Irp). destruct (Comp' r p Fd) as (y & Iy & T). specialize (Lw y (here i) Iy (turns_entries r p y i T Irp) eq_refl). cbn in Lw. lra. }
  destruct (job_spec arrange Harr argsort Harg shuffle Hsh cpus Hcpus nwait Hnw (fun i => red C (e_comp (ent i))) epa cost Hcost sp Hsp mk [s] [out] (map (formula C ent) ps) (map (formula C ent) ts) k)
    as (w & rs & m & pe & te & per & J & (Fa & Fb & _) & _ & Lp & Lt & Path).
  - constructor; [exact G|constructor].
  - cbn [concat]. rewrite app_nil_r. intros x y Ix Iy. apply in_flat_map in Ix as (a & Ia & Ix), Iy as (b & Ib & Iy). destruct (Hent a x Ia Ix) as (i & _ & ->). destruct (Hent b y Ib Iy) as (j & _ & ->). cbn. intros ->. reflexivity.
  - cbn [concat]. rewrite app_nil_r. intros x Ix. destruct (Good x Ix) as (en & _ & P & _). exact P.
  - cbn [concat]. rewrite app_nil_r. exact Sho.
  - cbn [concat]. rewrite app_nil_r. intros x e Ix Ie. destruct (Hent x e Ix Ie) as (i & _ & ->). reflexivity.
  - exact Ep.
  - destruct ps; [contradiction|discriminate].
  - exact Et.
  - destruct ts; [contradiction|discriminate].
  - exact Ek.
  - exact Hk.
  - cbn [concat]. rewrite app_nil_r. intros f If. rewrite <- map_app in If. apply in_map_iff in If as (i & <- & Ii). destruct (Hin i Ii) as (r & p & Fd & Irp). destruct (Comp' r p Fd) as (x & Ix & (U & M & _)).
    exists x, (here i). split; [exact Ix|]. split; [|reflexivity]. apply in_app_iff in Irp as [I|I].
    + destruct (proj2 (U (here i)) (ex_intro _ i (conj I eq_refl))) as (c & T & _). exact (in_combine_l _ _ _ _ T).
    + destruct (proj2 (M (here i)) (ex_intro _ i (conj I eq_refl))) as (c & T & _). exact (in_combine_l _ _ _ _ T).
  - cbn [concat] in Fa, Fb. rewrite app_nil_r in Fa, Fb.
    apply Hlow in Lp as ->; [|intros i Hi; apply in_app_iff; left; exact Hi]. apply Hlow in Lt as ->; [|intros i Hi; apply in_app_iff; right; exact Hi].
    assert (Rs : forall x, In x rs -> plain x /\ exists en r p, In en ens /\ looks en r p /\ turns C ent r p x).
    { intros x Ix. destruct (Fb x Ix) as (y & Iy & ->). destruct (Good y Iy) as (en & Ie & P & _ & r & p & L & T). split; [exact P|]. exists en, r, p. split; [exact Ie|]. split; [exact L|exact T]. }
    assert (Rc : forall r p, found_by ens r p -> exists x, In x rs /\ turns C ent r p x).
    { intros r p Fd. destruct (Comp' r p Fd) as (x & Ix & T). destruct (Fa x Ix) as (x' & Ix' & M). exists x'. split; [exact Ix'|].
      destruct (Rs x' Ix') as (_ & en' & r' & p' & _ & _ & T'). exact (turns_sided C ent r p r' p' x x' T T' (multiples_sides _ _ M)). }
    exists w, rs, per. split; [exact J|]. split; [exact Rs|]. split; [exact Rc|]. clear -Path Rc.
    revert per Path. induction ts as [|t ts IH]; intros per Path; cbn [map] in Path; inversion Path as [|a b la lb P F]; subst; constructor; [|apply IH; exact F]. split; [exact P|].
    intros (l & R) ->. destruct P as (_ & _ & _ & Pn). destruct (route_leads (found_by ens) rs ps t l Rc [] nothing) as (xs & I1 & I2); [intros i []|exact R|].
    exact (proj1 Pn eq_refl xs I1 I2).
Qed.
End General.

Section Sets.
Variable C : chem.
Hypothesis W : wf_chem C.
Hypothesis Hbig : forall c e, In e (ReactionModel.elems C c) -> (1 # 100 < amt C (red C c) e)%Q.
Variable ent : nat -> entry.
Hypothesis Hid : forall i, e_id (ent i) = i.
Context {D : Type}.
Variable diagram : list nat -> D.
Variable wait : nat -> list (list (list (list nat * list nat) * D)) -> list (list (list (list nat * list nat) * D)) * list (list (list (list nat * list nat) * D)).
Hypothesis Hw : valid_schedule wait.
Variable entries : list nat.
Hypothesis Hn : NoDup entries.
Hypothesis Hne : entries <> [].
Hypothesis Hel : forall e, In e entries -> ReactionModel.elems C (e_comp (ent e)) <> [].
Variable arrange : list sentry -> list sentry.
Hypothesis Harr : arranges arrange.
Variable argsort : list Q -> list nat.
Hypothesis Harg : forall l, Permutation (argsort l) (seq 0 (length l)).
Variable shuffle : list nat -> list nat.
Hypothesis Hsh : forall l, Permutation (shuffle l) l.
Notation solve := (entry_solve C ent).
Notation rank := (entry_rank C ent).
Notation here := (in_set C ent).
Notation outs_of en := (enumerated C ent solve rank diagram wait entries en).

Definition good_object (en : enumerator) (x : srxn) : Prop :=
  plain x /\ (forall e, In e (x_entries x) -> exists i, In i entries /\ e = here i) /\ exists r p, looks_at C ent entries en r p /\ turns C ent r p x.

Let finds (en : enumerator) r p : Prop := looks_at C ent entries en r p /\ determined C (formula C ent) r p.
Let each : forall en, usable en -> exists xs, outs_of en = Ok xs
  /\ (forall x, In x xs -> plain (set_rxn C x) /\ (forall e, In e (x_entries (set_rxn C x)) -> exists i, In i entries /\ e = here i) /\ exists r p, looks_at C ent entries en r p /\ turns C ent r p (set_rxn C x))
  /\ forall r p, finds en r p -> exists x, In x xs /\ turns C ent r p (set_rxn C x).
Proof.
  intros en Us. destruct (enumerated_spec C W Hbig ent Hid diagram wait Hw entries Hn Hel en Us) as (xs & E & Hx & Hf). exists xs. split; [exact E|]. split; [exact Hx|].
  intros r p (L & Dt). exact (Hf r p L Dt).
Qed.

Lemma set_made en : usable en -> (forall xs, outs_of en = Ok xs -> sharp (map (set_rxn C) xs)) ->
  exists s out, enumerate_set C ent solve rank diagram arrange argsort shuffle wait entries en = Ok s
  /\ (well_formed s /\ get_rxns s = Ok out /\ r_entries s = arrange (map here entries) /\ r_open s = None /\ r_chempot s = 0%Q)
  /\ (exists xs, outs_of en = Ok xs /\ incl out (map (set_rxn C) xs))
  /\ (forall x, In x out -> good_object en x)
  /\ forall r p, looks_at C ent entries en r p -> determined C (formula C ent) r p -> exists x, In x out /\ turns C ent r p x.
Proof.
  intros Us Sh. destruct (general_set_made C ent Hid entries Hn Hne arrange Harr argsort Harg shuffle Hsh _ en_duplicates usable (looks_at C ent entries) finds each en Us Sh) as (s & out & H1 & H2 & H3 & H4 & H5).
  exists s, out. split; [exact H1|]. split; [exact H2|]. split; [exact H3|]. split; [exact H4|]. intros r p L Dt. apply H5. split; assumption.
Qed.
Definition sharp_enumerators (ens : list enumerator) : Prop :=
  forall outs, Forall2 (fun en xs => outs_of en = Ok xs) ens outs -> sharp (map (set_rxn C) (concat outs)).

Theorem enumeration_spec ens : ens <> [] -> (forall en, In en ens -> usable en) -> sharp_enumerators ens ->
  exists s out, enumeration_job C ent solve rank diagram arrange argsort shuffle wait ens entries = Ok (Some s) /\ get_rxns s = Ok out /\ r_entries s = arrange (map here entries)
  /\ (forall x, In x out -> exists en, In en ens /\ good_object en x)
  /\ (forall en r p, In en ens -> looks_at C ent entries en r p -> determined C (formula C ent) r p -> exists x, In x out /\ turns C ent r p x)
  /\ ForallOrdPairs (fun x y => ~ multiples x y) out /\ sharp out /\ (forall x, In x out -> x_mu x = None).
Proof.
  intros Hens Us Sh. destruct (general_enumeration_spec C ent Hid entries Hn Hne arrange Harr argsort Harg shuffle Hsh _ en_duplicates usable (looks_at C ent entries) finds each ens Hens Us Sh) as (s & out & H1 & H2 & H3 & H4 & H5 & H6).
  exists s, out. split; [exact H1|]. split; [exact H2|]. split; [exact H3|]. split; [exact H4|]. split; [|exact H6]. intros en r p Ie L Dt. apply (H5 en r p Ie). split; assumption.
Qed.

(* --- the network --- *)
Variable cpus : nat.
Hypothesis Hcpus : 2 <= cpus.
Variable nwait : nat -> list (nat * list (option (list nat)) * result (list nat)) ->
  list (nat * list (option (list nat)) * result (list nat)) * list (nat * list (option (list nat)) * result (list nat)).
Hypothesis Hnw : valid_schedule nwait.
Variable epa : nat -> Q.
Variable cost : srxn -> Q.
Hypothesis Hcost : forall r, (0 <= cost r)%Q.
Variable sp : (payload -> Q) -> list (nat * nat * payload) -> nat -> nat -> option (list nat).
Hypothesis Hsp : forall weight, shortest weight (sp weight).

Theorem join_spec ens mk ps ts k : ens <> [] -> (forall en, In en ens -> usable en) -> sharp_enumerators ens ->
  incl (ps ++ ts) entries -> most_stable C ent epa entries (ps ++ ts) ->
  nm_precursors mk = Some (map (formula C ent) ps) -> ps <> [] -> nm_targets mk = Some (map (formula C ent) ts) -> ts <> [] -> nm_k mk = Some k -> 0 < k ->
  (forall i, In i (ps ++ ts) -> exists r p, reacts C ent entries ens r p /\ In i (r ++ p)) ->
  exists w rs per, enumerate_and_search C ent solve rank diagram arrange argsort shuffle wait cpus nwait epa cost sp ens entries mk = Ok (w, rs, Some (concat per))
  /\ (forall x, In x rs -> plain x /\ exists en r p, In en ens /\ looks_at C ent entries en r p /\ turns C ent r p x)
  /\ (forall r p, reacts C ent entries ens r p -> exists x, In x rs /\ turns C ent r p x)
  /\ Forall2 (fun t pathways => pathways_to cost rs (map here ps) (here t) k pathways /\ ((exists l, route (reacts C ent entries ens) ps t [] l) -> pathways <> [])) ts per.
Proof.
  intros Hens Us Sh Hincl Hform Ep Hps Et Hts Ek Hk Hin.
  assert (Same : forall r p, found_by finds ens r p <-> reacts C ent entries ens r p).
  { intros r p. split; [intros (en & Ie & L & Dt); split; [exists en; split; assumption|exact Dt]|intros ((en & Ie & L) & Dt); exists en; split; [exact Ie|split; assumption]]. }
  destruct (general_join_spec C ent Hid entries Hn Hne arrange Harr argsort Harg shuffle Hsh _ en_duplicates usable (looks_at C ent entries) finds each cpus Hcpus nwait Hnw epa cost Hcost sp Hsp ens mk ps ts k Hens Us Sh Hincl Hform Ep Hps Et Hts Ek Hk)
    as (w & rs & per & E & Rs & Rc & Path).
  { intros i Ii. destruct (Hin i Ii) as (r & p & Rr & I). exists r, p. split; [apply Same; exact Rr|exact I]. }
  exists w, rs, per. split; [exact E|]. split; [exact Rs|]. split; [intros r p Rr; apply Rc, Same; exact Rr|]. clear -Path Same.
  induction Path as [|t pathways ts per (P & N) F IH]; constructor; [|exact IH]. split; [exact P|]. intros (l & R). apply N. exists l. revert R. generalize (@nil nat). clear -Same.
  induction l as [|[r p] l IH]; intros have R; cbn [route] in *; [exact R|]. destruct R as (R1 & R2 & R3). split; [apply Same; exact R1|]. split; [exact R2|apply IH; exact R3].
Qed.
End Sets.
