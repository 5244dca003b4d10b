(* Proofs for C132. *)
From Verif Require Import Prelude NumQ ReactionModel ReactionBaseProofs RxnSetBaseProofs EntrySetModel CpdModel CpdProofs DomModel DomSpec.
Open Scope list_scope.
Open Scope nat_scope.

Section Domains.
Context {P : Type}.
Variable domains : nat -> option (list P).
Variable ground : list nat -> nat -> result nat.
Variable stabilized : list nat -> nat -> bool -> result nat.
Variable domain_in : list nat -> nat -> option (list P).
Notation meta := (metastable ground stabilized domain_in).
Notation has := (has_domain ground stabilized domain_in).

(* The cache only holds domains that would be found first. *)
Definition honest (S : list nat) (c : @cpd P) : Prop := c_set c = S /\ forall f p, dict_get f (c_cache c) = Some p -> has S f p.

Lemma store_result f d set x c c' : c_set c = c_set c' -> snd (store (P:=P) f d set x c) = snd (store f d set x c').
Proof. intros H. unfold store. destruct (set_remove x set); reflexivity. Qed.
Lemma same_result S f c : c_set c = S -> dict_get f (c_cache c) = None -> snd (meta f c) = snd (meta f (fresh S)).
Proof.
  intros E N. unfold metastable. rewrite N, E. cbn [fresh c_cache c_set dict_get].
  destruct (ground S f) as [o|]; [|reflexivity]. destruct (stabilized S o false) as [x|]; [|reflexivity]. cbv zeta.
  destruct (domain_in _ f); [apply store_result; exact E|]. destruct (set_remove _ _) as [s2|]; [|reflexivity].
  destruct (stabilized s2 o true) as [y|]; [|reflexivity]. destruct (domain_in _ f); [apply store_result; exact E|reflexivity].
Qed.
Lemma honest_step S f c p : new_entries ground stabilized S -> honest S c -> has S f p ->
  exists c', meta f c = (c', Ok p) /\ honest S c'.
Proof.
  intros N (E & H) D.
  assert (R : snd (meta f c) = Ok p).
  { destruct (dict_get f (c_cache c)) as [q|] eqn:G.
    - pose proof (H f q G) as Hq. unfold has_domain in *. unfold metastable at 1. rewrite G. cbn. congruence.
    - rewrite (same_result S f c E G). exact D. }
  destruct (meta_spec ground stabilized domain_in f c) with (d := p) as (A & B & _ & F).
  - intros e b x X Y. rewrite E in *. exact (N f e b x X Y).
  - exact R.
  - destruct (meta f c) as [c' r] eqn:M. cbn [fst snd] in *. exists c'. split; [rewrite R; reflexivity|].
    split; [congruence|]. intros g q G. destruct (Nat.eq_dec g f) as [->|X]; [rewrite B in G; injection G as <-; exact D|].
    rewrite (F g X) in G. exact (H g q G).
Qed.
Lemma honest_back S f c c' p : honest S c -> meta f c = (c', Ok p) -> has S f p.
Proof.
  intros (E & H) M. destruct (dict_get f (c_cache c)) as [q|] eqn:G.
  - pose proof (H f q G) as D. unfold metastable in M. rewrite G in M. injection M as _ <-. exact D.
  - unfold has_domain. rewrite <- (same_result S f c E G), M. reflexivity.
Qed.
Lemma asked_honest S c : new_entries ground stabilized S -> asked ground stabilized domain_in S c -> honest S c.
Proof.
  intros N A. induction A as [|f c c' p A IH M].
  - split; [reflexivity|]. intros f p H. discriminate.
  - destruct (honest_step S f c p N IH (honest_back S f c c' p IH M)) as (c2 & M2 & H2). rewrite M in M2. injection M2 as <-. exact H2.
Qed.

Lemma loop_spec S : new_entries ground stabilized S -> forall fs acc c, honest S c -> asked ground stabilized domain_in S c ->
  (forall f, In f fs -> domains f = None -> exists p, has S f p) -> NoDup (map fst acc) -> (forall f p, In (f, p) acc -> has S f p) ->
  exists c' d, meta_loop domains ground stabilized domain_in fs acc c = (c', Ok d) /\ honest S c' /\ asked ground stabilized domain_in S c' /\ NoDup (map fst d)
  /\ (forall f p, In (f, p) d -> has S f p) /\ (forall f, In f (map fst d) <-> In f (map fst acc) \/ (In f fs /\ domains f = None)).
Proof.
  intros N. induction fs as [|f fs IH]; intros acc c Hc Ac F Na Ha; cbn [meta_loop].
  - exists c, acc. repeat split; try assumption; try apply Hc; try tauto. intros [X|[[] _]]. exact X.
  - destruct (domains f) as [p0|] eqn:D.
    + destruct (IH acc c Hc Ac) as (c' & d & E & H1 & A1 & H2 & H3 & H4); [intros g I; apply F; right; exact I|exact Na|exact Ha|].
      exists c', d. repeat split; try assumption; try apply H1.
      * intros X. apply H4 in X. destruct X as [X|(X & Y)]; [left; exact X|right; split; [right; exact X|exact Y]].
      * intros X. apply H4. destruct X as [X|([->|X] & Y)]; [left; exact X|congruence|right; split; assumption].
    + destruct (F f (or_introl eq_refl) D) as (p & Hp). destruct (honest_step S f c p N Hc Hp) as (c1 & M & H1). rewrite M.
      destruct (IH (dict_set f p acc) c1 H1) as (c' & d & E & G1 & A1 & G2 & G3 & G4).
      * eapply asked_one; [exact Ac|exact M].
      * intros g I. apply F. right. exact I.
      * apply dict_set_nodup. exact Na.
      * intros g q I. apply dict_set_In in I. destruct I as [I|I]; [exact (Ha g q I)|injection I as -> ->; exact Hp].
      * exists c', d. repeat split; try assumption; try apply G1.
        -- intros X. apply G4 in X. destruct X as [X|(X & Y)]; [|right; split; [right; exact X|exact Y]].
           apply dict_set_In_key in X. destruct X as [->|X]; [right; split; [left; reflexivity|exact D]|left; exact X].
        -- intros X. apply G4. destruct X as [X|([->|X] & Y)]; [left; apply dict_set_In_key; right; exact X|left; apply dict_set_In_key; left; reflexivity|right; split; assumption].
Qed.

Theorem domains_spec S c fs : new_entries ground stabilized S -> asked ground stabilized domain_in S c ->
  (forall f, In f fs -> domains f = None -> exists p, has S f p) ->
  exists c' d, metastable_domains domains ground stabilized domain_in fs c = (c', Ok d)
  /\ asked ground stabilized domain_in S c' /\ c_set c' = S /\ NoDup (map fst d)
  /\ (forall f, In f (map fst d) <-> In f fs /\ domains f = None)
  /\ (forall f p, In (f, p) d -> has S f p).
Proof.
  intros N A F. pose proof (asked_honest S c N A) as H.
  destruct (loop_spec S N fs [] c H A F (NoDup_nil _)) as (c' & d & E & G1 & A1 & G2 & G3 & G4); [intros f p []|].
  exists c', d. split; [exact E|]. split; [exact A1|]. split; [apply G1|]. split; [exact G2|]. split; [|exact G3].
  intros f. rewrite G4. cbn. tauto.
Qed.

(* The first formula without a domain stops the property. *)
Theorem domains_fail S c before f after e : new_entries ground stabilized S -> asked ground stabilized domain_in S c ->
  (forall g, In g before -> domains g = None -> exists p, has S g p) -> domains f = None -> no_domain ground stabilized domain_in S f e ->
  snd (metastable_domains domains ground stabilized domain_in (before ++ f :: after) c) = Err e.
Proof.
  intros N A F D Bad. pose proof (asked_honest S c N A) as H. clear A. unfold metastable_domains. generalize (@nil (nat * list P)). revert c H.
  induction before as [|g before IH]; intros c H acc; cbn [app meta_loop].
  - rewrite D. assert (R : snd (meta f c) = Err e).
    { destruct (dict_get f (c_cache c)) as [q|] eqn:G; [pose proof (proj2 H f q G) as Hq; unfold has_domain, no_domain in *; congruence|]. rewrite (same_result S f c (proj1 H) G). exact Bad. }
    destruct (meta f c) as [c' r]. cbn in R. subst r. reflexivity.
  - assert (F' : forall g0, In g0 before -> domains g0 = None -> exists p, has S g0 p) by (intros g0 I; apply F; right; exact I).
    destruct (domains g) eqn:Dg; [apply IH; assumption|]. destruct (F g (or_introl eq_refl) Dg) as (p & Hp).
    destruct (honest_step S g c p N H Hp) as (c1 & M & H1). rewrite M. apply IH; assumption.
Qed.

(* Two formulas, stable or not, have the same distance whenever it is asked for. *)
Theorem distance_spec (dist : P -> P -> Q) S c f1 f2 p1 p2 off : new_entries ground stabilized S -> asked ground stabilized domain_in S c ->
  (domains f1 = Some p1 \/ domains f1 = None /\ has S f1 p1) -> (domains f2 = Some p2 \/ domains f2 = None /\ has S f2 p2) ->
  snd (shortest_domain_distance dist domains ground stabilized domain_in f1 f2 off c) = shortest dist p1 p2 off.
Proof.
  intros N A H1 H2. pose proof (asked_honest S c N A) as Hc.
  assert (D : forall f p c, (domains f = Some p \/ domains f = None /\ has S f p) -> honest S c ->
    exists c', domain_of domains ground stabilized domain_in f c = (c', Ok p) /\ honest S c').
  { intros f p c0 [E|(E & H)] H0; unfold domain_of; rewrite E; [exists c0; split; [reflexivity|exact H0]|exact (honest_step S f c0 p N H0 H)]. }
  unfold shortest_domain_distance. destruct (D f1 p1 c H1 Hc) as (c1 & E1 & Hc1). rewrite E1.
  destruct (D f2 p2 c1 H2 Hc1) as (c2 & E2 & Hc2). rewrite E2. reflexivity.
Qed.
End Domains.
