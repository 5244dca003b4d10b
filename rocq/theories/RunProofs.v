(* Proofs about run_enumerators (C66) and expand_pd (C33). *)
From Verif Require Import Prelude NumQ ListFacts UtilsModel UtilsSpec UtilsProofs RxnSetModel RxnSetSpec RxnSetBaseProofs RxnSetProofs RxnSetDupProofs RxnSetFilterProofs RxnSetTempProofs
  EnumModel EnumSpec EnumProofs EnumReactProofs RunModel.
Open Scope nat_scope.

(* --- run_enumerators --- *)
Lemma get_rxns_mu s rs r : get_rxns s = Ok rs -> In r rs -> x_mu r = mu_dict s.
Proof.
  unfold get_rxns. intros E Hin. destruct (mapM _ _) as [ls|] eqn:El; [|discriminate]. injection E as <-. apply in_concat in Hin as (l & Hl & Hr).
  apply mapM_Forall2 in El. destruct (Forall2_In_r _ _ _ _ El Hl) as (n & _ & En). destruct (rows_of_size s n) as [rows|]; [|discriminate]. cbn [bind] in En.
  apply mapM_Forall2 in En. destruct (Forall2_In_r _ _ _ _ En Hr) as ([[idx co] da] & _ & Er). unfold rxn_of_row in Er.
  destruct (mapM (index (r_entries s)) idx); [|discriminate]. injection Er as <-. reflexivity.
Qed.

Lemma run_loop_spec es op mu sets rss : Forall2 (fun s rs => well_formed s /\ get_rxns s = Ok rs /\ r_entries s = es /\ r_open s = op /\ r_chempot s = mu) sets rss ->
  forall a ra, well_formed a -> get_rxns a = Ok ra -> r_entries a = es -> r_open a = op -> r_chempot a = mu ->
  exists s out, run_loop (Some a) (map Ok sets) = Ok (Some s) /\ well_formed s /\ get_rxns s = Ok out /\ r_entries s = es
  /\ Permutation out (ra ++ concat rss).
Proof.
  induction 1 as [|b rb sets rss (Hw & Hg & He & Ho & Hm) HF IH]; intros a ra Wa Ga Ea Oa Ma.
  - exists a, ra. simpl. rewrite app_nil_r. split; [reflexivity|]. split; [exact Wa|]. split; [exact Ga|]. split; [exact Ea|apply Permutation_refl].
  - simpl. destruct (add_rxn_set_spec a b Wa Hw) as (ra' & rb' & Ga' & Gb' & _ & Hadd). rewrite Ga in Ga'. injection Ga' as <-. rewrite Hg in Gb'. injection Gb' as <-.
    destruct Hadd as (s & out & E & Ws & Gs & Hp & Es & Os & Ms); [congruence|]. rewrite E. cbn [bind].
    destruct (IH s out Ws Gs) as (s' & out' & E' & Ws' & Gs' & Es' & Hp'); [congruence|congruence|congruence|].
    exists s', out'. split; [exact E'|]. split; [exact Ws'|]. split; [exact Gs'|]. split; [exact Es'|].
    eapply perm_trans; [exact Hp'|]. rewrite app_assoc. apply Permutation_app_tail. eapply perm_trans; [exact Hp|].
    rewrite with_mu_id; [apply Permutation_refl|]. intros r Hr. rewrite (get_rxns_mu b rb r Hg Hr). unfold mu_dict. rewrite Ho, Hm, Oa, Ma. reflexivity.
Qed.

(* sharp, plain and the rest only depend on the members. *)
Theorem run_spec argsort shuffle : (forall l, Permutation (argsort l) (seq 0 (length l))) -> (forall l, Permutation (shuffle l) l) ->
  forall es op mu sets rss, sets <> [] -> NoDup es ->
  Forall2 (fun s rs => well_formed s /\ get_rxns s = Ok rs /\ r_entries s = es /\ r_open s = op /\ r_chempot s = mu) sets rss ->
  (forall r, In r (concat rss) -> plain r) -> sharp (concat rss) ->
  exists s out, run_enumerators argsort shuffle (map Ok sets) = Ok (Some s) /\ get_rxns s = Ok out /\ r_entries s = es
  /\ (exists rest, Permutation (concat rss) (out ++ rest))
  /\ (forall r, In r (concat rss) -> exists r', In r' out /\ multiples r r')
  /\ ForallOrdPairs (fun r r' => ~ multiples r r') out.
Proof.
  intros Ha Hs es op mu sets rss Hne Hn HF Hpl Hsh. inversion HF as [|a ra sets' rss' (Wa & Ga & Ea & Oa & Ma) HF' E1 E2]; subst sets rss; [contradiction|].
  unfold run_enumerators. simpl. destruct (run_loop_spec es op mu sets' rss' HF' a ra Wa Ga Ea Oa Ma) as (s & out & E & Ws & Gs & Es & Hp).
  rewrite E. cbn [bind].
  assert (Hmem : forall r, In r out <-> In r (ra ++ concat rss')).
  { intros r. split; apply Permutation_in; [exact Hp|apply Permutation_sym; exact Hp]. }
  destruct (no_ensured_families argsort shuffle Ha Hs s Ws ltac:(rewrite Es; exact Hn) out Gs) as (s' & out' & Ef & Ws' & Gs' & (rest & Hr) & Hfam & Hpair).
  - intros r Hr. apply Hpl, Hmem. exact Hr.
  - intros r r' H1 H2. apply Hsh; apply Hmem; assumption.
  - rewrite Ef. cbn [bind]. exists s', out'. split; [reflexivity|]. split; [exact Gs'|]. split.
    { unfold filter_duplicates in Ef. destruct (filter_duplicates_idxs argsort shuffle s []) as [ix|]; [|discriminate]. cbn [bind] in Ef.
      unfold get_rxn_set_by_indices in Ef. repeat match type of Ef with bind ?x _ = Ok _ => destruct x; [cbn [bind] in Ef|discriminate] end.
      injection Ef as <-. exact Es. }
    split; [exists rest; eapply perm_trans; [apply Permutation_sym; exact Hp|exact Hr]|]. split; [|exact Hpair].
    intros r Hin. apply Hfam, Hmem. exact Hin.
Qed.

(* --- expand_pd --- *)
Lemma insert_desc_perm size x l : Permutation (insert_desc size x l) (x :: l).
Proof.
  induction l as [|y l IH]; simpl; [apply Permutation_refl|]. destruct (Nat.ltb (size x) (size y)); [|apply Permutation_refl].
  eapply perm_trans; [apply perm_skip; exact IH|apply perm_swap].
Qed.
Lemma sort_desc_perm size l : Permutation (sort_desc size l) l.
Proof. induction l as [|x l IH]; [constructor|]. simpl. eapply perm_trans; [apply insert_desc_perm|]. apply perm_skip. exact IH. Qed.
Lemma sort_desc_sorted size l : StronglySorted (fun a b => size b <= size a) (sort_desc size l).
Proof.
  induction l as [|x l IH]; [constructor|]. simpl. induction IH as [|y m Hm IH Hy]; simpl; [repeat constructor|].
  destruct (Nat.ltb_spec (size x) (size y)) as [L|L].
  - constructor; [exact IH|]. apply Forall_forall. intros z Hz. apply (Permutation_in _ (insert_desc_perm size x m)) in Hz as [<-|Hz]; [lia|].
    rewrite Forall_forall in Hy. apply Hy. exact Hz.
  - constructor; [constructor; assumption|]. constructor; [exact L|]. eapply Forall_impl; [|exact Hy]. simpl. intros z Hz. lia.
Qed.

Section Expand.
Variable elems : nat -> list nat.
Hypothesis Hnd : forall e, NoDup (elems e).

Lemma chemsys_in e x : In x (chemsys elems e) <-> In x (elems e).
Proof. apply sorted_set_spec. Qed.
Lemma sorted_NoDup l : StronglySorted lt l -> NoDup l.
Proof.
  induction 1 as [|x l Hl IH Hx]; constructor; [|exact IH]. intros Hin. rewrite Forall_forall in Hx. specialize (Hx x Hin). lia.
Qed.
Lemma chemsys_length e : length (chemsys elems e) = length (elems e).
Proof.
  apply Permutation_length, NoDup_Permutation; [apply sorted_NoDup, sorted_set_spec|apply Hnd|apply chemsys_in].
Qed.

Definition expand_step (entries : list nat) (d : list (list nat * list nat)) (e : nat) : list (list nat * list nat) :=
  if existsb (fun kv => subset (chemsys elems e) (fst kv)) d then d
  else d ++ [(chemsys elems e, filter (fun x => subset (elems x) (elems e)) entries)].

(* the invariant after the entries [seen] *)
Definition expand_inv (entries seen : list nat) (d : list (list nat * list nat)) : Prop :=
  (forall e, In e seen -> exists kv, In kv d /\ forall x, In x (elems e) -> In x (fst kv))
  /\ (forall kv, In kv d -> exists e, In e seen /\ fst kv = chemsys elems e /\ snd kv = filter (fun x => subset (elems x) (fst kv)) entries)
  /\ ForallOrdPairs (fun a b => ~ (forall x, In x (fst b) -> In x (fst a)) /\ ~ (forall x, In x (fst a) -> In x (fst b))) d.

Lemma expand_loop entries todo : forall seen d, StronglySorted (fun a b => length (elems b) <= length (elems a)) todo ->
  (forall a b, In a seen -> In b todo -> length (elems b) <= length (elems a)) -> expand_inv entries seen d ->
  expand_inv entries (seen ++ todo) (fold_left (expand_step entries) todo d).
Proof.
  induction todo as [|e todo IH]; intros seen d Hs Hle (I1 & I2 & I3); simpl; [rewrite app_nil_r; split; [exact I1|split; assumption]|].
  inversion Hs as [|? ? Hs' He]; subst. rewrite Forall_forall in He.
  replace (seen ++ e :: todo) with ((seen ++ [e]) ++ todo) by (rewrite <- app_assoc; reflexivity). apply IH.
  - exact Hs'.
  - intros a b Ha Hb. apply in_app_iff in Ha as [Ha|[<-|[]]]; [apply Hle; [exact Ha|right; exact Hb]|apply He; exact Hb].
  - unfold expand_step. destruct (existsb (fun kv => subset (chemsys elems e) (fst kv)) d) eqn:E.
    + apply existsb_exists in E as (kv & Hkv & Hsub). rewrite subset_iff in Hsub. split; [|split; [|exact I3]].
      * intros a Ha. apply in_app_iff in Ha as [Ha|[<-|[]]]; [apply I1; exact Ha|]. exists kv. split; [exact Hkv|]. intros x Hx. apply Hsub, chemsys_in. exact Hx.
      * intros kv' Hkv'. destruct (I2 kv' Hkv') as (a & Ha & Ek). exists a. split; [apply in_app_iff; left; exact Ha|exact Ek].
    + assert (Hno : forall kv, In kv d -> ~ (forall x, In x (chemsys elems e) -> In x (fst kv))).
      { intros kv Hkv Hsub. apply not_true_iff_false in E. apply E, existsb_exists. exists kv. split; [exact Hkv|]. apply subset_iff. exact Hsub. }
      split; [|split].
      * intros a Ha. apply in_app_iff in Ha as [Ha|[<-|[]]].
        -- destruct (I1 a Ha) as (kv & Hkv & Hx). exists kv. split; [apply in_app_iff; left; exact Hkv|exact Hx].
        -- eexists. split; [apply in_app_iff; right; left; reflexivity|]. intros x Hx. cbn [fst]. apply chemsys_in. exact Hx.
      * intros kv Hkv. apply in_app_iff in Hkv as [Hkv|[<-|[]]].
        -- destruct (I2 kv Hkv) as (a & Ha & Ek). exists a. split; [apply in_app_iff; left; exact Ha|exact Ek].
        -- exists e. split; [apply in_app_iff; right; left; reflexivity|]. cbn [fst snd]. split; [reflexivity|]. apply filter_ext. intros x.
           apply eq_true_iff_eq. rewrite !subset_iff. split; intros H y Hy; apply chemsys_in, H; exact Hy.
      * assert (G : forall kv, In kv d -> ~ (forall x, In x (fst kv) -> In x (chemsys elems e))).
        { intros kv Hkv Hsub. destruct (I2 kv Hkv) as (a & Ha & Ek & _). apply (Hno kv Hkv). rewrite Ek in *. intros x Hx. apply chemsys_in. apply chemsys_in in Hx.
          assert (Hinc : incl (elems a) (elems e)) by (intros y Hy; apply chemsys_in, Hsub, chemsys_in; exact Hy).
          assert (incl (elems e) (elems a)) as Hinc' by (apply NoDup_length_incl; [apply Hnd|apply Hle; [exact Ha|left; reflexivity]|exact Hinc]).
          exact (Hinc' x Hx). }
        clear -I3 G Hno. induction I3 as [|kv d Hkv I3 IH]; simpl; [repeat constructor|]. constructor.
        -- apply Forall_app. split; [exact Hkv|]. constructor; [|constructor]. cbn [fst]. split; [apply Hno; left; reflexivity|apply G; left; reflexivity].
        -- apply IH; intros kv' Hkv'; [apply Hno|apply G]; right; exact Hkv'.
Qed.

Theorem expand_pd_spec entries :
  let d := expand_pd elems entries in
  (forall e, In e entries -> exists k es, In (k, es) d /\ (forall x, In x (elems e) -> In x k) /\ In e es)
  /\ (forall k es, In (k, es) d -> picks (fun e => forall x, In x (elems e) -> In x k) entries es /\ es <> [])
  /\ ForallOrdPairs (fun a b => ~ (forall x, In x (fst b) -> In x (fst a)) /\ ~ (forall x, In x (fst a) -> In x (fst b))) d
  /\ (forall e_hull e, In e entries -> exists k es, In (k, es) d /\ In e es /\ get_e_above_hull elems e_hull entries e = Ok (e_hull es e)).
Proof.
  intros d. set (todo := sort_desc (fun e => length (elems e)) entries).
  assert (Hinv : expand_inv entries todo d).
  { unfold d, expand_pd. apply (expand_loop entries todo [] []).
    - apply sort_desc_sorted.
    - intros a b [].
    - split; [intros e []|]. split; [intros kv []|constructor]. }
  destruct Hinv as (I1 & I2 & I3).
  assert (Hin : forall e, In e entries <-> In e todo).
  { intros e. split; apply Permutation_in; [apply Permutation_sym|]; apply sort_desc_perm. }
  assert (Hes : forall e k es, In e entries -> In (k, es) d -> (forall x, In x (elems e) -> In x k) -> In e es).
  { intros e k es He Hd Hk. destruct (I2 (k, es) Hd) as (_ & _ & _ & E). cbn [fst snd] in E. rewrite E. apply filter_In. split; [exact He|]. apply subset_iff. exact Hk. }
  split; [|split; [|split; [exact I3|]]].
  - intros e He. destruct (I1 e (proj1 (Hin e) He)) as ([k es] & Hd & Hk). exists k, es. split; [exact Hd|]. split; [exact Hk|]. apply (Hes e k es He Hd Hk).
  - intros k es Hd. destruct (I2 (k, es) Hd) as (a & Ha & Ek & E). cbn [fst snd] in *. split.
    + rewrite E. apply picks_filter. intros x _. apply subset_iff.
    + assert (H : In a es); [|intros ->; destruct H]. apply (Hes a k es); [apply Hin; exact Ha|exact Hd|]. intros x Hx. rewrite Ek. apply chemsys_in. exact Hx.
  - intros e_hull e He. unfold get_e_above_hull. fold d. destruct (I1 e (proj1 (Hin e) He)) as (kv & Hd & Hk).
    assert (F : forall d', (forall x, In x d' -> In x d) -> (exists kv, In kv d' /\ forall x, In x (elems e) -> In x (fst kv)) ->
       exists k es, In (k, es) d /\ (forall x, In x (elems e) -> In x k) /\ first_pd elems d' e = Ok (k, es)).
    { induction d' as [|[k es] d' IH]; intros Hsub (kv' & Hin' & Hk'); [destruct Hin'|]. simpl. destruct (subset (chemsys elems e) k) eqn:Es.
      - rewrite subset_iff in Es. exists k, es. split; [apply Hsub; left; reflexivity|]. split; [intros x Hx; apply Es, chemsys_in; exact Hx|reflexivity].
      - apply IH; [intros x Hx; apply Hsub; right; exact Hx|]. exists kv'. split; [|exact Hk']. destruct Hin' as [<-|Hin']; [|exact Hin'].
        exfalso. apply not_true_iff_false in Es. apply Es, subset_iff. intros x Hx. apply Hk', chemsys_in. exact Hx. }
    destruct (F d (fun x Hx => Hx)) as (k & es & Hd' & Hk' & E); [exists kv; split; assumption|]. rewrite E. cbn [bind snd]. exists k, es.
    split; [exact Hd'|]. split; [exact (Hes e k es He Hd' Hk')|reflexivity].
Qed.
End Expand.
