From Verif Require Import Prelude NumQ ListFacts UtilsModel UtilsSpec ReactionModel ReactionSpec ReactionBaseProofs RxnSetBaseProofs EnumModel EnumSpec EnumReactProofs EnumLinkModel EnumRealProofs EntrySetModel EntrySetSpec EntrySetProofs InitModel InitSpec.
Open Scope nat_scope.

Lemma mapM_total {A B} (f : A -> result B) l : (forall x, In x l -> exists y, f x = Ok y) -> exists out, mapM f l = Ok out.
Proof.
  induction l as [|x l IH]; intros H; [exists []; reflexivity|]. destruct (H x (or_introl eq_refl)) as (y & E).
  destruct IH as (out & O); [intros z I; apply H; right; exact I|]. exists (y :: out). cbn. rewrite E, O. reflexivity.
Qed.

Lemma picks_sat {A} (P : A -> Prop) l out : picks P l out -> Forall P out.
Proof. induction 1; [constructor|constructor; assumption|assumption]. Qed.

Section Init.
Variables (reduced formula : nat -> nat) (epa : nat -> Q) (interp stabilized : nat -> result nat) (stable : list nat -> result (list nat)).
Notation meant := (meant reduced formula epa interp).
Hypothesis interp_formula : forall t e, interp t = Ok e -> formula e = reduced t.
Hypothesis interp_same : forall t t', reduced t = reduced t' -> interp t = interp t'.

Lemma init_entry_meant members t e : init_entry reduced formula epa interp stabilized false members t = Ok e -> meant members t e.
Proof.
  unfold init_entry. destruct (min_entry_spec formula epa members (reduced t)) as (A & B & D).
  destruct (get_min_entry formula epa members (reduced t)) as [m|x] eqn:M.
  - cbn. intros [= <-]. left. apply A. reflexivity.
  - assert (x = KeyError) as -> by (apply D; reflexivity). cbn.
    destruct (interp t) as [i|x] eqn:I; cbn; [|discriminate]. intros [= <-]. right. split; [apply B; reflexivity|exact I].
Qed.
Lemma init_entry_ok members t : (exists x, In x members /\ formula x = reduced t) \/ (exists e, interp t = Ok e) ->
  exists e, init_entry reduced formula epa interp stabilized false members t = Ok e.
Proof.
  intros H. unfold init_entry. destruct (min_entry_spec formula epa members (reduced t)) as (A & B & D).
  destruct (get_min_entry formula epa members (reduced t)) as [m|x] eqn:M; [cbn; eauto|].
  assert (x = KeyError) as -> by (apply D; reflexivity). destruct H as [(x & I & F)|(e & E)].
  - exfalso. apply (proj1 B eq_refl x I F).
  - rewrite E. cbn. eauto.
Qed.
Lemma init_same members t t' e e' : reduced t = reduced t' ->
  init_entry reduced formula epa interp stabilized false members t = Ok e ->
  init_entry reduced formula epa interp stabilized false members t' = Ok e' -> e = e'.
Proof.
  intros R. unfold init_entry. rewrite <- R, <- (interp_same t t' R). intros H H'. rewrite H in H'. congruence.
Qed.
Lemma meant_formula members t e : meant members t e -> formula e = reduced t.
Proof. intros [[F _]|[_ I]]; [exact F|apply interp_formula; exact I]. Qed.

Lemma init_list_spec members ts :
  (forall t, In t ts -> (exists x, In x members /\ formula x = reduced t) \/ (exists e, interp t = Ok e)) ->
  exists P, init_list reduced formula epa interp stabilized false members ts = Ok P /\ NoDup P
  /\ (forall e, In e P <-> exists t, In t ts /\ init_entry reduced formula epa interp stabilized false members t = Ok e).
Proof.
  intros H. unfold init_list.
  destruct (mapM_total (init_entry reduced formula epa interp stabilized false members) ts) as (l & L).
  { intros t I. apply init_entry_ok, H, I. }
  rewrite L. cbn. eexists. split; [reflexivity|]. split; [apply set_update_NoDup; constructor|].
  apply mapM_Forall2 in L. intros e. rewrite set_update_In. cbn. split.
  - intros [I|[]]. induction L as [|t e' ts' l' E F IH]; [destruct I|]. destruct I as [<-|I].
    + exists t. split; [left; reflexivity|exact E].
    + destruct IH as (t' & I' & E'); [intros t' I'; apply H; right; exact I'|exact I|]. exists t'. split; [right; exact I'|exact E'].
  - intros (t & I & E). left. clear H. induction L as [|t0 e0 ts' l' E0 F IH]; [destruct I|].
    destruct I as [->|I]; [left; congruence|right; apply IH; exact I].
Qed.

(* Nothing is discarded: every entry put in is new only if its formula is. *)
Lemma put_loop es : forall new,
  (forall e, In e es -> In e new \/ forall x, In x new -> formula x <> formula e) ->
  (forall a b, In a es -> In b es -> formula a = formula b -> a = b) ->
  NoDup new ->
  NoDup (fold_left (put_entry formula epa) es new) /\ forall e, In e (fold_left (put_entry formula epa) es new) <-> In e new \/ In e es.
Proof.
  induction es as [|e es IH]; intros new H U N; [cbn; split; [exact N|tauto]|].
  cbn [fold_left]. assert (P : NoDup (put_entry formula epa new e) /\ forall x, In x (put_entry formula epa new e) <-> In x new \/ x = e).
  { unfold put_entry. destruct (mem e new) eqn:M.
    - apply mem_iff in M. split; [exact N|]. intros x. split; [tauto|]. intros [I| ->]; assumption.
    - apply mem_false in M. destruct (H e (or_introl eq_refl)) as [I|F]; [contradiction|].
      destruct (min_entry_spec formula epa new (formula e)) as (_ & B & _). rewrite (proj2 B F).
      split; [apply set_add_NoDup; exact N|]. intros x. rewrite set_add_In. tauto. }
  destruct P as [N' P]. destruct (IH (put_entry formula epa new e)) as [N2 Q]; [| |exact N'|].
  - intros x I. rewrite P. destruct (H x (or_intror I)) as [I'|F]; [tauto|].
    destruct (Nat.eq_dec (formula e) (formula x)) as [E|E].
    + left. right. apply U; [right; exact I|left; reflexivity|symmetry; exact E].
    + right. intros y I'. apply P in I' as [I'| ->]; [apply F; exact I'|exact E].
  - intros a b Ia Ib. apply U; right; assumption.
  - split; [exact N2|]. intros x. rewrite Q, P. cbn. intuition congruence.
Qed.

Theorem init_spec : forall members pre tar open_phases, NoDup members ->
  (forall t, In t pre \/ In t tar -> (exists x, In x members /\ formula x = reduced t) \/ (exists e, interp t = Ok e)) ->
  exists new P T O, initialized reduced formula epa interp stabilized stable false members pre tar open_phases = Ok (new, P, T, O)
  /\ NoDup new /\ NoDup P /\ NoDup T /\ NoDup O
  /\ (forall e, In e new <-> In e members \/ In e P \/ In e T)
  /\ (forall e, In e P -> exists t, In t pre /\ meant members t e) /\ (forall t, In t pre -> exists e, In e P /\ meant members t e)
  /\ (forall e, In e T -> exists t, In t tar /\ meant members t e) /\ (forall t, In t tar -> exists e, In e T /\ meant members t e)
  /\ (forall a b, In a P \/ In a T -> In b P \/ In b T -> formula a = formula b -> a = b)
  /\ (forall e, In e O <-> In e new /\ In (formula e) open_phases).
Proof.
  intros members pre tar op N H.
  destruct (init_list_spec members pre) as (P & LP & NP & HP); [intros t I; apply H; left; exact I|].
  destruct (init_list_spec members tar) as (T & LT & NT & HT); [intros t I; apply H; right; exact I|].
  assert (U : forall a b, In a P \/ In a T -> In b P \/ In b T -> formula a = formula b -> a = b).
  { assert (G : forall a, In a P \/ In a T -> exists t, init_entry reduced formula epa interp stabilized false members t = Ok a).
    { intros a [I|I]; [apply HP in I|apply HT in I]; destruct I as (t & _ & E); exists t; exact E. }
    intros a b Ia Ib F. destruct (G a Ia) as (t & E), (G b Ib) as (t' & E').
    assert (R := meant_formula _ _ _ (init_entry_meant _ _ _ E)). assert (R' := meant_formula _ _ _ (init_entry_meant _ _ _ E')).
    apply (init_same members t t'); [congruence|exact E|exact E']. }
  destruct (put_loop (set_update T P) members) as [NN HN].
  { intros e I. assert (exists t, init_entry reduced formula epa interp stabilized false members t = Ok e) as (t & E).
    { apply set_update_In in I as [I|I]; [apply HT in I|apply HP in I]; destruct I as (t & _ & E); exists t; exact E. }
    assert (M := init_entry_meant _ _ _ E). destruct M as [[F [G _]]|[A I']]; [left; exact G|right].
    rewrite (interp_formula _ _ I'). exact A. }
  { intros a b Ia Ib. apply set_update_In in Ia, Ib. apply U; tauto. }
  { exact N. }
  exists (fold_left (put_entry formula epa) (set_update T P) members), P, T, (filter (fun e => mem (formula e) op) (fold_left (put_entry formula epa) (set_update T P) members)).
  split; [unfold initialized; rewrite LP; cbn [bind]; rewrite LT; reflexivity|].
  split; [exact NN|]. split; [exact NP|]. split; [exact NT|]. split; [apply NoDup_filter; exact NN|].
  split; [intros e; rewrite HN, set_update_In; tauto|].
  split; [intros e I; apply HP in I as (t & It & E); exists t; split; [exact It|apply init_entry_meant; exact E]|].
  split.
  { intros t I. destruct (init_entry_ok members t) as (e & E); [apply H; left; exact I|]. exists e. split; [apply HP; exists t; tauto|apply init_entry_meant; exact E]. }
  split; [intros e I; apply HT in I as (t & It & E); exists t; split; [exact It|apply init_entry_meant; exact E]|].
  split.
  { intros t I. destruct (init_entry_ok members t) as (e & E); [apply H; right; exact I|]. exists e. split; [apply HT; exists t; tauto|apply init_entry_meant; exact E]. }
  split; [exact U|]. intros e. rewrite filter_In, mem_iff. reflexivity.
Qed.
End Init.

(* basic.py:151 and the rest of enumerate for BasicEnumerator *)
Theorem enumerate_named : forall {D} C ent solve rank (diagram : list nat -> D) o reduced formula epa interp stabilized stable members pre tar wait, wf_chem C ->
  (forall c e, In e (ReactionModel.elems C c) -> (1#100 < amt C (red C c) e)%Q) -> (forall i, e_id (ent i) = i) ->
  (forall r p c, length (solve r p c) = length r + length p) ->
  (forall t e, interp t = Ok e -> formula e = reduced t) -> (forall t t', reduced t = reduced t' -> interp t = interp t') ->
  NoDup members -> (forall e, In e members \/ (exists t, interp t = Ok e) -> ReactionModel.elems C (e_comp (ent e)) <> []) -> o_changed o = true ->
  1 <= o_chunk o -> 1 <= o_jobs o -> valid_schedule wait ->
  (forall t, In t pre \/ In t tar -> (exists x, In x members /\ formula x = reduced t) \/ (exists e, interp t = Ok e)) ->
  exists new P T out, initialized reduced formula epa interp stabilized stable false members pre tar [] = Ok (new, P, T, [])
  /\ enumerate_rxns (fun i => ReactionModel.elems C (e_comp (ent i))) basic_iterable basic_iter_length
       (basic_react (forward_rxn C ent solve rank) (backward_rxn C ent solve rank)) diagram o new P T [] [] wait = Ok out
  /\ (forall r, In r out -> sound_rxn o r
       /\ (pre <> [] -> match o_pfunc o with
            | IsSuperset => forall e, In e (er_reactants r) -> exists t, In t pre /\ meant reduced formula epa interp members t e
            | Intersection => exists e t, In e (er_reactants r) /\ In t pre /\ meant reduced formula epa interp members t e
            end)
       /\ (tar <> [] -> match o_tfunc o with
            | IsSuperset => forall e, In e (er_products r) -> exists t, In t tar /\ meant reduced formula epa interp members t e
            | Intersection => exists e t, In e (er_products r) /\ In t tar /\ meant reduced formula epa interp members t e
            end)).
Proof.
  intros D C ent solve rank diagram o reduced formula epa interp stabilized stable members pre tar wait W Hbig Hid Hs If Is N Hel Hch H1 H2 Hw H.
  destruct (init_spec reduced formula epa interp stabilized stable If Is members pre tar [] N H) as (new & P & T & O & I & NN & NP & NT & NO & HN & P1 & P2 & T1 & T2 & U & HO).
  assert (O = []) as -> by (destruct O as [|x O]; [reflexivity|]; destruct (proj1 (HO x) (or_introl eq_refl)) as [_ []]).
  assert (Hel' : forall e, In e new -> ReactionModel.elems C (e_comp (ent e)) <> []).
  { intros e Ie. apply Hel. apply HN in Ie as [Ie|[Ie|Ie]]; [left; exact Ie| |].
    - destruct (P1 e Ie) as (t & _ & [[_ [G _]]|[_ G]]); [left; exact G|right; exists t; exact G].
    - destruct (T1 e Ie) as (t & _ & [[_ [G _]]|[_ G]]); [left; exact G|right; exists t; exact G]. }
  destruct (basic_real_complete C ent solve rank diagram o new P T wait W Hbig Hid Hs NN Hel' Hch H1 H2 Hw) as (out & E & (pairs & outs & NPa & HP & F & Pm)).
  exists new, P, T, out. split; [exact I|]. split; [exact E|]. intros r Ir.
  apply (Permutation_in _ Pm), in_concat in Ir as (l & Il & Ir).
  destruct (Forall2_In_r _ _ _ _ F Il) as (rp & _ & Pk). apply picks_sat in Pk. rewrite Forall_forall in Pk. destruct (Pk r Ir) as [S [WP WT]].
  split; [exact S|]. split.
  - intros NE. destruct WP as [->|WP].
    { exfalso. destruct pre as [|t pre]; [congruence|]. destruct (P2 t (or_introl eq_refl)) as (e & [] & _). }
    destruct (o_pfunc o).
    + intros e Ie. destruct (WP e Ie) as [X|[]]. apply P1, X.
    + destruct WP as (e & Ie & X & _). destruct (P1 e X) as (t & It & M). exists e, t. tauto.
  - intros NE. destruct WT as [->|WT].
    { exfalso. destruct tar as [|t tar]; [congruence|]. destruct (T2 t (or_introl eq_refl)) as (e & [] & _). }
    destruct (o_tfunc o).
    + intros e Ie. destruct (WT e Ie) as [X|[]]. apply T1, X.
    + destruct WT as (e & Ie & X & _). destruct (T1 e X) as (t & It & M). exists e, t. tauto.
Qed.
