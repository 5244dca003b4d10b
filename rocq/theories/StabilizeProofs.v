(* C91 with stabilize: the named entries take the place of the ground states. *)
From Verif Require Import Prelude NumQ ListFacts UtilsModel UtilsSpec ReactionModel ReactionSpec ReactionBaseProofs RxnSetBaseProofs EnumModel EnumSpec EntrySetModel EntrySetSpec EntrySetProofs InitModel InitSpec InitProofs.
Open Scope nat_scope.

Section Stabilize.
Variables (reduced formula : nat -> nat) (epa : nat -> Q) (interp stabilized : nat -> result nat) (stable : list nat -> result (list nat)).
Notation put := (put_entry formula epa).

Lemma put_step new e : NoDup new -> NoDup (put new e)
  /\ (In e (put new e))
  /\ (forall x, formula x <> formula e -> (In x (put new e) <-> In x new))
  /\ (forall x, In x (put new e) -> In x new \/ x = e)
  /\ (In e new -> forall x, In x new -> In x (put new e))
  /\ (~ In e new -> (exists y, In y new /\ formula y = formula e) ->
      exists m, In m new /\ formula m = formula e /\ ground_state formula epa (fun x => In x new) m /\ ~ In m (put new e)
        /\ forall x, In x new -> x <> m -> In x (put new e)).
Proof.
  intros N. unfold put_entry. destruct (mem e new) eqn:M.
  { apply mem_iff in M. split; [exact N|]. split; [exact M|]. split; [intros; reflexivity|]. split; [tauto|]. split; [tauto|]. intros H. contradiction. }
  apply mem_false in M. destruct (min_entry_spec formula epa new (formula e)) as (A & B & D).
  destruct (get_min_entry formula epa new (formula e)) as [m|x] eqn:G.
  - destruct (A m eq_refl) as [F S]. destruct S as [Im S].
    split; [apply set_add_NoDup, set_discard_NoDup, N|]. split; [apply set_add_In; left; reflexivity|].
    split. { intros x Hx. rewrite set_add_In, set_discard_In. split; [intros [->|[H _]]; [contradiction|exact H]|]. intros H. right. split; [exact H|]. intros ->. contradiction. }
    split. { intros x. rewrite set_add_In, set_discard_In. tauto. }
    split; [intros; contradiction|]. intros _ _. exists m. split; [exact Im|]. split; [exact F|]. split; [split; assumption|]. split.
    + rewrite set_add_In, set_discard_In. intros [->|[_ H]]; contradiction.
    + intros x Ix Nx. rewrite set_add_In, set_discard_In. tauto.
  - assert (x = KeyError) as -> by (apply D; reflexivity). pose proof (proj1 B eq_refl) as Z.
    split; [apply set_add_NoDup, N|]. split; [apply set_add_In; left; reflexivity|].
    split. { intros x Hx. rewrite set_add_In. split; [intros [->|H]; [contradiction|exact H]|tauto]. }
    split. { intros x. rewrite set_add_In. tauto. }
    split; [intros; contradiction|]. intros _ (y & Iy & Fy). destruct (Z y Iy Fy).
Qed.

Lemma put_all es : forall new, NoDup new -> NoDup es -> (forall a b, In a es -> In b es -> formula a = formula b -> a = b) ->
  replaces formula epa new es (fold_left put es new).
Proof.
  induction es as [|e es IH]; intros new N NE U.
  { cbn. split; [exact N|]. split; [intros ? []|]. split; [tauto|]. split; [tauto|intros ? []]. }
  cbn [fold_left]. destruct (put_step new e N) as (N' & Ie & Ho & Hs & Hk & Hm). inversion NE as [|? ? Ne NE']; subst.
  destruct (IH (put new e) N' NE') as (R1 & R2 & R3 & R4 & R5); [intros a b Ia Ib; apply U; right; assumption|].
  set (B := fold_left put es (put new e)) in *.
  assert (Fne : forall s, In s es -> formula s <> formula e).
  { intros s Is F. apply Ne. rewrite <- (U s e (or_intror Is) (or_introl eq_refl) F). exact Is. }
  assert (Keep : forall x, formula x = formula e -> (In x B <-> In x (put new e))).
  { intros x Fx. split.
    - intros Ix. destruct (R3 x Ix) as [H|H]; [exact H|]. destruct (Fne x H Fx).
    - intros Ix. destruct (in_dec Nat.eq_dec x B) as [H|H]; [exact H|]. exfalso. destruct (R4 x Ix H) as (_ & s & Is & _ & Fs).
      apply (Fne s Is). congruence. }
  split; [exact R1|]. split; [|split; [|split]].
  - intros s [<-|Is]; [apply Keep; [reflexivity|exact Ie]|apply R2; exact Is].
  - intros x Ix. destruct (R3 x Ix) as [H|H]; [|right; right; exact H]. destruct (Hs x H) as [H'|H']; [left; exact H'|right; left; congruence].
  - intros x Ix Nx. destruct (Nat.eq_dec (formula x) (formula e)) as [F|F].
    + assert (Np : ~ In x (put new e)) by (intros H; apply Nx, Keep; assumption).
      assert (Nn : ~ In e new) by (intros H; apply Np, Hk; assumption).
      destruct (Hm Nn) as (m & Im & Fm & Gm & _ & Hx); [exists x; split; assumption|].
      destruct (Nat.eq_dec x m) as [->|Nm]; [|destruct (Np (Hx x Ix Nm))].
      split; [exact Gm|]. exists e. split; [left; reflexivity|]. split; [exact Nn|congruence].
    + assert (Ix' : In x (put new e)) by (apply Ho; assumption). destruct (R4 x Ix' Nx) as ([G1 G2] & s & Is & Ns & Fs). split.
      * split; [exact Ix|]. intros y Iy Fy. apply G2; [|exact Fy]. apply Ho; [congruence|exact Iy].
      * exists s. split; [right; exact Is|]. split; [|exact Fs]. intros H. apply Ns. apply Ho; [congruence|exact H].
  - intros s Is Ns Ex. destruct (Nat.eq_dec s e) as [->|Nse].
    + destruct (Hm Ns Ex) as (m & Im & Fm & Gm & Nm & Hx). exists m. split.
      * split; [exact Im|]. split; [exact Fm|]. intros H. apply Nm, Keep; assumption.
      * intros y (Iy & Fy & Ny). destruct (Nat.eq_dec m y) as [E|E]; [exact E|]. exfalso. apply Ny. apply Keep; [exact Fy|]. apply Hx; [exact Iy|congruence].
    + assert (Ise : In s es) by (destruct Is as [E|Is]; [congruence|exact Is]). pose proof (Fne s Ise) as Fs.
      destruct (R5 s Ise) as (m & (Im & Fm & Nm) & Um).
      * intros H. apply Ns, Ho; assumption.
      * destruct Ex as (y & Iy & Fy). exists y. split; [apply Ho; [congruence|exact Iy]|exact Fy].
      * exists m. split; [split; [apply Ho; [congruence|exact Im]|split; assumption]|].
        intros y (Iy & Fy & Ny). apply Um. split; [apply Ho; [congruence|exact Iy]|split; assumption].
Qed.

Hypothesis interp_formula : forall t e, interp t = Ok e -> formula e = reduced t.
Hypothesis interp_same : forall t t', reduced t = reduced t' -> interp t = interp t'.
Hypothesis stab_formula : forall e s, stabilized e = Ok s -> formula s = formula e.
Notation meant := (meant reduced formula epa interp).

Lemma init_stab members t : init_entry reduced formula epa interp stabilized true members t
  = bind (init_entry reduced formula epa interp stabilized false members t) stabilized.
Proof. unfold init_entry. destruct (match get_min_entry formula epa members (reduced t) with Err KeyError => interp t | r => r end); reflexivity. Qed.

Lemma stab_list members ts :
  (forall t, In t ts -> (exists x, In x members /\ formula x = reduced t) \/ (exists e, interp t = Ok e)) ->
  (forall e, In e members \/ (exists t, interp t = Ok e) -> exists s, stabilized e = Ok s) ->
  exists P, init_list reduced formula epa interp stabilized true members ts = Ok P /\ NoDup P
  /\ (forall s, In s P <-> exists t, In t ts /\ init_entry reduced formula epa interp stabilized true members t = Ok s).
Proof.
  intros H Hs. unfold init_list.
  destruct (mapM_total (init_entry reduced formula epa interp stabilized true members) ts) as (l & L).
  { intros t I. rewrite init_stab. destruct (init_entry_ok reduced formula epa interp stabilized members t (H t I)) as (e & E). rewrite E. cbn.
    apply Hs. destruct (init_entry_meant reduced formula epa interp stabilized members t e E) as [[_ [G _]]|[_ G]]; [left; exact G|right; exists t; exact G]. }
  rewrite L. cbn. eexists. split; [reflexivity|]. split; [apply set_update_NoDup; constructor|].
  apply mapM_Forall2 in L. intros s. rewrite set_update_In. cbn. split.
  - intros [I|[]]. clear H. induction L as [|t e' ts' l' E F IH]; [destruct I|]. destruct I as [<-|I].
    + exists t. split; [left; reflexivity|exact E].
    + destruct (IH I) as (t' & I' & E'). exists t'. split; [right; exact I'|exact E'].
  - intros (t & I & E). left. clear H. induction L as [|t0 e0 ts' l' E0 F IH]; [destruct I|].
    destruct I as [->|I]; [left; congruence|right; apply IH; exact I].
Qed.

Theorem stabilize_spec members pre tar open_phases : NoDup members ->
  (forall t, In t pre \/ In t tar -> (exists x, In x members /\ formula x = reduced t) \/ (exists e, interp t = Ok e)) ->
  (forall e, In e members \/ (exists t, interp t = Ok e) -> exists s, stabilized e = Ok s) ->
  exists P T named before, NoDup P /\ NoDup T
  /\ (forall s, In s P -> exists t e, In t pre /\ meant members t e /\ stabilized e = Ok s)
  /\ (forall t, In t pre -> exists e s, meant members t e /\ stabilized e = Ok s /\ In s P)
  /\ (forall s, In s T -> exists t e, In t tar /\ meant members t e /\ stabilized e = Ok s)
  /\ (forall t, In t tar -> exists e s, meant members t e /\ stabilized e = Ok s /\ In s T)
  /\ (forall s, In s named <-> In s P \/ In s T)
  /\ replaces formula epa members named before
  /\ match stable before with
     | Err x => initialized reduced formula epa interp stabilized stable true members pre tar open_phases = Err x
     | Ok new => exists O, initialized reduced formula epa interp stabilized stable true members pre tar open_phases = Ok (new, P, T, O)
         /\ forall e, In e O <-> In e new /\ In (formula e) open_phases
     end.
Proof.
  intros N H Hs.
  destruct (stab_list members pre) as (P & LP & NP & HP); [intros t I; apply H; left; exact I|exact Hs|].
  destruct (stab_list members tar) as (T & LT & NT & HT); [intros t I; apply H; right; exact I|exact Hs|].
  assert (Mean : forall t s, init_entry reduced formula epa interp stabilized true members t = Ok s ->
    exists e, init_entry reduced formula epa interp stabilized false members t = Ok e /\ meant members t e /\ stabilized e = Ok s).
  { intros t s E. rewrite init_stab in E. destruct (init_entry reduced formula epa interp stabilized false members t) as [e|x] eqn:F; [|discriminate].
    exists e. split; [reflexivity|]. split; [apply init_entry_meant with (stabilized := stabilized); exact F|exact E]. }
  assert (Form : forall t s, init_entry reduced formula epa interp stabilized true members t = Ok s -> formula s = reduced t).
  { intros t s E. destruct (Mean t s E) as (e & _ & M & S). rewrite (stab_formula _ _ S). destruct M as [[F _]|[_ I]]; [exact F|apply interp_formula; exact I]. }
  assert (Each : forall t, In t pre \/ In t tar -> exists s, init_entry reduced formula epa interp stabilized true members t = Ok s).
  { intros t I. rewrite init_stab. destruct (init_entry_ok reduced formula epa interp stabilized members t (H t I)) as (e & E). rewrite E. cbn.
    apply Hs. destruct (init_entry_meant reduced formula epa interp stabilized members t e E) as [[_ [G _]]|[_ G]]; [left; exact G|right; exists t; exact G]. }
  set (named := set_update T P). set (before := fold_left put named members).
  assert (In_named : forall s, In s named <-> In s P \/ In s T) by (intros s; unfold named; rewrite set_update_In; tauto).
  assert (U : forall a b, In a named -> In b named -> formula a = formula b -> a = b).
  { assert (G : forall a, In a named -> exists t, init_entry reduced formula epa interp stabilized true members t = Ok a).
    { intros a I. apply In_named in I as [I|I]; [apply HP in I|apply HT in I]; destruct I as (t & _ & E); exists t; exact E. }
    intros a b Ia Ib F. destruct (G a Ia) as (t & E), (G b Ib) as (t' & E'). pose proof (Form _ _ E) as R. pose proof (Form _ _ E') as R'.
    destruct (Mean _ _ E) as (e & Ee & _ & S), (Mean _ _ E') as (e' & Ee' & _ & S').
    assert (e = e') as <- by (apply (init_same reduced formula epa interp stabilized interp_same members t t'); [congruence|exact Ee|exact Ee']). congruence. }
  exists P, T, named, before. split; [exact NP|]. split; [exact NT|].
  assert (Four : forall ts L, (forall s, In s L <-> exists t, In t ts /\ init_entry reduced formula epa interp stabilized true members t = Ok s) ->
    (forall t, In t ts -> In t pre \/ In t tar) ->
    (forall s, In s L -> exists t e, In t ts /\ meant members t e /\ stabilized e = Ok s)
    /\ (forall t, In t ts -> exists e s, meant members t e /\ stabilized e = Ok s /\ In s L)).
  { intros ts L HL Hin. split.
    - intros s I. apply HL in I as (t & It & E). destruct (Mean _ _ E) as (e & _ & M & S). exists t, e. split; [exact It|]. split; assumption.
    - intros t It. destruct (Each t (Hin t It)) as (s & E). destruct (Mean _ _ E) as (e & _ & M & S). exists e, s. split; [exact M|]. split; [exact S|]. apply HL. exists t. split; assumption. }
  destruct (Four pre P HP) as [P1 P2]; [tauto|]. destruct (Four tar T HT) as [T1 T2]; [tauto|].
  split; [exact P1|]. split; [exact P2|]. split; [exact T1|]. split; [exact T2|]. split; [exact In_named|].
  split. { apply put_all; [exact N|unfold named; apply set_update_NoDup; exact NP|exact U]. }
  unfold initialized. rewrite LP, LT. cbn [bind]. fold named. fold before. destruct (stable before) as [new|x]; cbn [bind]; [|reflexivity].
  eexists. split; [reflexivity|]. intros e. rewrite filter_In, mem_iff. reflexivity.
Qed.
End Stabilize.
