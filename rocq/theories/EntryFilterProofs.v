(* C51: filter_by_stability. *)
From Coq Require Import Lqa.
From Verif Require Import Prelude NumQ ListFacts UtilsModel ReactionModel ReactionBaseProofs RxnSetBaseProofs ParetoProofs SolverModel EnumModel EnumSpec RunModel RunProofs EntrySetModel EntrySetSpec EntrySetProofs.
Open Scope nat_scope.

Section Filter.
Variable formula : nat -> nat.
Variable epa : nat -> Q.
Variable e_hull : list nat -> nat -> Q.
Variable cutoff : Q.

Lemma dict_get_set_same {V} k (v : V) d : dict_get k (dict_set k v d) = Some v.
Proof. rewrite dict_get_set, Nat.eqb_refl. reflexivity. Qed.
Lemma dict_get_set_other {V} k k' (v : V) d : k <> k' -> dict_get k' (dict_set k v d) = dict_get k' d.
Proof. intros N. rewrite dict_get_set. destruct (Nat.eqb_spec k' k); [congruence|reflexivity]. Qed.
Lemma picks_incl {A} (P : A -> Prop) l out : picks P l out -> incl out l.
Proof. induction 1; intros y I; [exact I|destruct I as [<-|I]; [left; reflexivity|right; apply IHpicks; exact I]|right; apply IHpicks; exact I]. Qed.

(* Without polymorphs. [P] holds for the entries accepted so far. *)
Record inv (P : nat -> Prop) (s : fstate) : Prop := {
  i_nodup : NoDup (f_set s);
  i_comp : forall f e, dict_get f (f_comps s) = Some e -> In e (f_set s) /\ formula e = f;
  i_set : forall e, In e (f_set s) -> dict_get (formula e) (f_comps s) = Some e;
  i_ok : forall e, In e (f_set s) -> P e;
  i_min : forall e, P e -> exists m, dict_get (formula e) (f_comps s) = Some m /\ (epa m <= epa e)%Q
}.

Lemma put_inv P s e l : inv P s -> ~ In e l -> NoDup l ->
  (forall x, In x l <-> In x (f_set s) /\ formula x <> formula e) ->
  (forall m, dict_get (formula e) (f_comps s) = Some m -> (epa e <= epa m)%Q) ->
  inv (fun x => P x \/ x = e) (f_put formula e s l).
Proof.
  intros H Ne Nl Hl Hm. unfold f_put. split; cbn [f_set f_comps].
  - apply set_add_NoDup. exact Nl.
  - intros f x G. destruct (Nat.eq_dec (formula e) f) as [<-|E].
    + rewrite dict_get_set_same in G. inversion G; subst x. split; [apply set_add_In; left; reflexivity|reflexivity].
    + rewrite (dict_get_set_other _ _ _ _ E) in G. destruct (i_comp _ _ H f x G) as [A B]. split; [|exact B].
      apply set_add_In. right. apply Hl. split; [exact A|congruence].
  - intros x I. apply set_add_In in I as [->|I]; [apply dict_get_set_same|]. apply Hl in I as [I F].
    rewrite dict_get_set_other; [|congruence]. apply (i_set _ _ H). exact I.
  - intros x I. apply set_add_In in I as [->|I]; [right; reflexivity|]. apply Hl in I as [I _]. left. apply (i_ok _ _ H). exact I.
  - intros x [Px| ->].
    + destruct (i_min _ _ H x Px) as (m & G & L). destruct (Nat.eq_dec (formula e) (formula x)) as [E|E].
      * exists e. rewrite <- E. split; [apply dict_get_set_same|]. rewrite E in Hm. specialize (Hm m G). lra.
      * exists m. rewrite (dict_get_set_other _ _ _ _ E). split; assumption.
    + exists e. split; [apply dict_get_set_same|apply Qle_refl].
Qed.

Lemma same_inv P s e : inv P s -> (exists m, dict_get (formula e) (f_comps s) = Some m /\ (epa m <= epa e)%Q) ->
  forall Q0 : nat -> Prop, (forall x, Q0 x -> P x \/ x = e) -> (forall x, P x -> Q0 x) -> inv Q0 s.
Proof.
  intros H M Q0 A B. split; [apply H|apply H|apply H| |].
  - intros x I. apply B, (i_ok _ _ H). exact I.
  - intros x Qx. destruct (A x Qx) as [Px| ->]; [apply (i_min _ _ H); exact Px|exact M].
Qed.

Lemma inv_ext P P' s : (forall x, P x <-> P' x) -> inv P s -> inv P' s.
Proof.
  intros E H. split; [apply H|apply H|apply H| |]; intros x; [intros I; apply E, (i_ok _ _ H); exact I|intros Px; apply (i_min _ _ H), E; exact Px].
Qed.

Definition accepted (P : nat -> Prop) (pd : list nat) (e x : nat) : Prop := P x \/ (x = e /\ (e_hull pd e <= cutoff)%Q).

Lemma f_entry_inv P pd e s : inv P s -> exists s', f_entry formula epa e_hull cutoff false pd e s = Ok s' /\ inv (accepted P pd e) s'.
Proof.
  intros H. unfold f_entry. destruct (mem e (f_set s)) eqn:M; cbn [orb].
  { exists s. split; [reflexivity|]. apply mem_iff in M. assert (Pe := i_ok _ _ H e M).
    apply (inv_ext P); [|exact H]. intros x. unfold accepted. split; [tauto|]. intros [Px|[-> _]]; assumption. }
  destruct (Qlt_bool cutoff (e_hull pd e)) eqn:Q0.
  { exists s. split; [reflexivity|]. apply (inv_ext P); [|exact H]. intros x. unfold accepted. apply Qlt_bool_iff in Q0. split; [tauto|]. intros [Px|[_ L]]; [exact Px|lra]. }
  apply Qlt_bool_false_iff in Q0. apply mem_false in M.
  assert (X : forall s', inv (fun x => P x \/ x = e) s' -> inv (accepted P pd e) s').
  { intros s'. apply inv_ext. intros x. unfold accepted. tauto. }
  destruct (dict_get (formula e) (f_comps s)) as [old|] eqn:G.
  - destruct (i_comp _ _ H _ _ G) as [Io Fo]. destruct (Qlt_bool (epa old) (epa e)) eqn:L.
    + exists s. split; [reflexivity|]. apply X. apply Qlt_bool_iff in L. apply (same_inv P s e H); [exists old; split; [exact G|lra]| |]; intros; tauto.
    + apply Qlt_bool_false_iff in L. rewrite (proj2 (mem_iff _ _) Io). eexists. split; [reflexivity|]. apply X. apply put_inv; [exact H| | | |].
      * rewrite set_discard_In. tauto.
      * apply set_discard_NoDup, H.
      * intros x. rewrite set_discard_In. split; intros [A B]; split; try exact A.
        -- intros F. apply B. assert (Gx := i_set _ _ H x A). rewrite F in Gx. congruence.
        -- intros ->. congruence.
      * intros m G'. rewrite G in G'. inversion G'; subst m. exact L.
  - eexists. split; [reflexivity|]. apply X. apply put_inv; [exact H|exact M|apply H| |].
    + intros x. split; [|tauto]. intros A. split; [exact A|]. intros F. assert (Gx := i_set _ _ H x A). rewrite F in Gx. congruence.
    + intros m G'. congruence.
Qed.

Lemma f_loop_inv pd : forall todo P s, inv P s -> exists s', f_loop formula epa e_hull cutoff false pd todo s = Ok s'
  /\ inv (fun x => P x \/ (In x todo /\ (e_hull pd x <= cutoff)%Q)) s'.
Proof.
  induction todo as [|e l IH]; intros P s H.
  - exists s. split; [reflexivity|]. apply (inv_ext P); [|exact H]. intros x. cbn. tauto.
  - cbn [f_loop]. destruct (f_entry_inv P pd e s H) as (s1 & E1 & H1). rewrite E1. cbn [bind].
    destruct (IH _ _ H1) as (s2 & E2 & H2). exists s2. split; [exact E2|]. revert H2. apply inv_ext. intros x. unfold accepted. cbn.
    split; [intros [[A|[-> A]]|[A B]]; tauto|]. intros [A|[[<-|A] B]]; tauto.
Qed.

Lemma f_pds_inv : forall pds P s, inv P s -> exists s', f_pds formula epa e_hull cutoff false pds s = Ok s'
  /\ inv (fun x => P x \/ qualifies e_hull cutoff pds x) s'.
Proof.
  induction pds as [|pd l IH]; intros P s H.
  - exists s. split; [reflexivity|]. apply (inv_ext P); [|exact H]. intros x. unfold qualifies. split; [tauto|]. intros [A|(pd & [] & _)]. exact A.
  - cbn [f_pds]. destruct (f_loop_inv pd pd P s H) as (s1 & E1 & H1). rewrite E1. cbn [bind].
    destruct (IH _ _ H1) as (s2 & E2 & H2). exists s2. split; [exact E2|]. revert H2. apply inv_ext. intros x. unfold qualifies. split.
    + intros [[A|[A B]]|(p & A & B)]; [tauto|right; exists pd; cbn; tauto|right; exists p; cbn; tauto].
    + intros [A|(p & [<-|A] & B)]; [tauto|tauto|right; exists p; tauto].
Qed.

Lemma no_polymorphs pds : exists l, filter_pds formula epa e_hull cutoff false pds = Ok l /\ NoDup l
  /\ (forall a b, In a l -> In b l -> formula a = formula b -> a = b)
  /\ (forall m, In m l -> ground_state formula epa (qualifies e_hull cutoff pds) m)
  /\ (forall e, qualifies e_hull cutoff pds e -> exists m, In m l /\ formula m = formula e).
Proof.
  assert (H0 : inv (fun _ => False) {| f_set := []; f_comps := [] |}).
  { split; cbn; [constructor|discriminate|intros e []|intros e []|intros e []]. }
  destruct (f_pds_inv pds _ _ H0) as (s & E & H). unfold filter_pds. rewrite E. cbn [bind]. exists (f_set s).
  split; [reflexivity|]. split; [apply H|]. split; [|split].
  - intros a b Ia Ib F. assert (A := i_set _ _ H a Ia). assert (B := i_set _ _ H b Ib). rewrite F in A. congruence.
  - intros m Im. split.
    + destruct (i_ok _ _ H m Im) as [[]|Q1]. exact Q1.
    + intros e Qe Fe. destruct (i_min _ _ H e (or_intror Qe)) as (m' & G & L). rewrite Fe, (i_set _ _ H m Im) in G. inversion G; subst. exact L.
  - intros e Qe. destruct (i_min _ _ H e (or_intror Qe)) as (m & G & _). exists m. apply (i_comp _ _ H). exact G.
Qed.

(* With polymorphs. *)
Lemma poly_loop pd : forall todo s, NoDup (f_set s) -> exists s', f_loop formula epa e_hull cutoff true pd todo s = Ok s' /\ NoDup (f_set s')
  /\ forall x, In x (f_set s') <-> In x (f_set s) \/ (In x todo /\ (e_hull pd x <= cutoff)%Q).
Proof.
  induction todo as [|e l IH]; intros s N.
  - exists s. split; [reflexivity|]. split; [exact N|]. intros x. cbn. tauto.
  - cbn [f_loop]. unfold f_entry. destruct (mem e (f_set s)) eqn:M; cbn [orb bind].
    + apply mem_iff in M. destruct (IH s N) as (s' & E & N' & H). exists s'. split; [exact E|]. split; [exact N'|]. intros x. rewrite H. cbn. split; [tauto|]. intros [A|[[<-|A] B]]; tauto.
    + destruct (Qlt_bool cutoff (e_hull pd e)) eqn:Q0; cbn [bind].
      * apply Qlt_bool_iff in Q0. destruct (IH s N) as (s' & E & N' & H). exists s'. split; [exact E|]. split; [exact N'|]. intros x. rewrite H. cbn. split; [tauto|]. intros [A|[[<-|A] B]]; [tauto|lra|tauto].
      * apply Qlt_bool_false_iff in Q0. destruct (IH (f_put formula e s (f_set s))) as (s' & E & N' & H); [apply set_add_NoDup; exact N|]. exists s'. split; [exact E|]. split; [exact N'|].
        intros x. rewrite H. cbn [f_set f_put]. rewrite set_add_In. cbn. split; [intros [[->|A]|A]; tauto|]. intros [A|[[<-|A] B]]; tauto.
Qed.
Lemma poly_pds : forall pds s, NoDup (f_set s) -> exists s', f_pds formula epa e_hull cutoff true pds s = Ok s' /\ NoDup (f_set s')
  /\ forall x, In x (f_set s') <-> In x (f_set s) \/ qualifies e_hull cutoff pds x.
Proof.
  induction pds as [|pd l IH]; intros s N.
  - exists s. split; [reflexivity|]. split; [exact N|]. intros x. unfold qualifies. split; [tauto|]. intros [A|(p & [] & _)]. exact A.
  - cbn [f_pds]. destruct (poly_loop pd pd s N) as (s1 & E1 & N1 & H1). rewrite E1. cbn [bind]. destruct (IH s1 N1) as (s2 & E2 & N2 & H2).
    exists s2. split; [exact E2|]. split; [exact N2|]. intros x. rewrite H2, H1. unfold qualifies. split.
    + intros [[A|[A B]]|(p & A & B)]; [tauto|right; exists pd; cbn; tauto|right; exists p; cbn; tauto].
    + intros [A|(p & [<-|A] & B)]; [tauto|tauto|right; exists p; tauto].
Qed.
Lemma with_polymorphs pds : exists l, filter_pds formula epa e_hull cutoff true pds = Ok l /\ NoDup l
  /\ forall e, In e l <-> qualifies e_hull cutoff pds e.
Proof.
  destruct (poly_pds pds {| f_set := []; f_comps := [] |}) as (s & E & N & H); [constructor|]. unfold filter_pds. rewrite E. cbn [bind].
  exists (f_set s). split; [reflexivity|]. split; [exact N|]. intros e. rewrite H. cbn. tauto.
Qed.
End Filter.

(* For a whole set, when all diagrams agree on the energy above hull. *)
Lemma qualifies_set elems e_hull h cutoff members : (forall e, NoDup (elems e)) -> (forall k pd e, In (k, pd) (expand_pd elems members) -> In e pd -> (e_hull pd e == h e)%Q) ->
  forall e, qualifies e_hull cutoff (map snd (expand_pd elems members)) e <-> In e members /\ (h e <= cutoff)%Q.
Proof.
  intros N A e. destruct (expand_pd_spec elems N members) as (S1 & S2 & _). split.
  - intros (pd & I & J & L). apply in_map_iff in I as ([k es] & <- & I). cbn [snd] in *. split; [|rewrite <- (A k es e I J); exact L].
    destruct (S2 k es I) as [Pk _]. exact (picks_incl _ _ _ Pk e J).
  - intros [I L]. destruct (S1 e I) as (k & es & J & _ & K). exists es. split; [apply in_map_iff; exists (k, es); split; [reflexivity|exact J]|].
    split; [exact K|]. rewrite (A k es e J K). exact L.
Qed.
Lemma filter_set elems formula epa e_hull h cutoff members : (forall e, NoDup (elems e)) -> (forall k pd e, In (k, pd) (expand_pd elems members) -> In e pd -> (e_hull pd e == h e)%Q) ->
  (exists l, filter_by_stability elems formula epa e_hull members cutoff false = Ok l /\ NoDup l
    /\ (forall a b, In a l -> In b l -> formula a = formula b -> a = b)
    /\ (forall m, In m l -> ground_state formula epa (fun e => In e members /\ (h e <= cutoff)%Q) m)
    /\ (forall e, In e members -> (h e <= cutoff)%Q -> exists m, In m l /\ formula m = formula e))
  /\ exists l, filter_by_stability elems formula epa e_hull members cutoff true = Ok l /\ NoDup l
    /\ forall e, In e l <-> In e members /\ (h e <= cutoff)%Q.
Proof.
  intros N A. assert (Q0 := qualifies_set elems e_hull h cutoff members N A). unfold filter_by_stability. split.
  - destruct (no_polymorphs formula epa e_hull cutoff (map snd (expand_pd elems members))) as (l & E & Nd & U & G & R). exists l.
    split; [exact E|]. split; [exact Nd|]. split; [exact U|]. split.
    + intros m Im. destruct (G m Im) as [G1 G2]. split; [apply Q0; exact G1|]. intros e He. apply G2, Q0. exact He.
    + intros e Ie Le. apply R, Q0. split; assumption.
  - destruct (with_polymorphs formula epa e_hull cutoff (map snd (expand_pd elems members))) as (l & E & Nd & H). exists l.
    split; [exact E|]. split; [exact Nd|]. intros e. rewrite H. apply Q0.
Qed.
