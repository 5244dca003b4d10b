(* C58, and the carbonate correction. *)
From Coq Require Import Lqa.
From Verif Require Import Prelude NumQ ListFacts SumQ UtilsModel ReactionModel ReactionSpec ReactionBaseProofs RxnSetBaseProofs HullChainProofs SolverModel GibbsModel EntrySetModel EntrySetSpec.
Open Scope nat_scope.

Section FromPd.
Variable formula : nat -> nat.
Variables is_el is_ref : nat -> bool.
Variables nist freed : source.
Hypothesis nist_ok : well_behaved nist.
Hypothesis freed_ok : well_behaved freed.
Variables use_nist use_freed ignore_solids : bool.
Variable build : nat -> result unit.
Hypothesis build_ok : forall e, exists u, build e = Ok u.
Notation loop := (from_pd_loop formula is_el is_ref nist freed use_nist use_freed ignore_solids build).
Notation has_nist := (available use_nist ignore_solids nist).
Notation has_freed := (available use_freed false freed).

Lemma wanted_spec on s ign f : well_behaved s -> exists b, wanted on s ign f = Ok b /\ (b = true <-> available on ign s f).
Proof.
  intros W. unfold wanted, check_experimental, available. destruct on; [|exists false; split; [reflexivity|]; intuition discriminate].
  destruct (src_has s f); [|exists false; split; [reflexivity|]; intuition discriminate].
  destruct (ign && src_ignored s f) eqn:I.
  - apply andb_prop in I as [I1 I2]. exists false. split; [reflexivity|]. split; [discriminate|]. intros (_ & _ & H & _). exfalso. apply H. split; assumption.
  - assert (NI : ~ (ign = true /\ src_ignored s f = true)) by (intros [A B]; rewrite A, B in I; discriminate).
    destruct (src_build s f) as [u|x] eqn:B.
    + exists true. split; [reflexivity|]. split; [intros _|reflexivity]. repeat split; try exact NI. exists u. reflexivity.
    + assert (X := W f x B). subst x. exists false. split; [reflexivity|]. split; [discriminate|]. intros (_ & _ & _ & u & E). discriminate.
Qed.

Lemma considered_dec e : considered is_el is_ref e <-> is_el e && negb (is_ref e) = false.
Proof. unfold considered. destruct (is_el e), (is_ref e); cbn; intuition discriminate. Qed.

(* When NIST has an entry and FREED is asked too, FREED has one. *)
Hypothesis no_gap : forall f, has_nist f -> use_freed = true -> has_freed f.

Lemma from_pd_loop_spec : forall entries seen, NoDup entries -> (forall f, In f seen -> has_nist f \/ has_freed f) ->
  exists out, loop entries seen = Ok out /\ NoDup out
  /\ (forall e, In (FromPd e) out <-> In e entries /\ considered is_el is_ref e /\ ~ has_nist (formula e) /\ ~ has_freed (formula e))
  /\ (forall f, In (FromNist f) out <-> has_nist f /\ ~ In f seen /\ exists e, In e entries /\ considered is_el is_ref e /\ formula e = f)
  /\ (forall f, In (FromFreed f) out <-> has_freed f /\ ~ In f seen /\ exists e, In e entries /\ considered is_el is_ref e /\ formula e = f).
Proof.
  induction entries as [|e l IH]; intros seen N S.
  { exists []. split; [reflexivity|]. split; [constructor|]. split; [|split]; intros x; cbn; split; try tauto; intros H; try destruct H as (_ & _ & e & [] & _). }
  inversion N as [|? ? Ne Nl]; subst. cbn [from_pd_loop].
  destruct (is_el e && negb (is_ref e)) eqn:X; cbn [orb].
  { (* excluded *)
    assert (NC : ~ considered is_el is_ref e) by (rewrite considered_dec; congruence).
    destruct (IH seen Nl S) as (out & E & D & A1 & A2 & A3). exists out. split; [exact E|]. split; [exact D|]. split; [|split].
    - intros x. rewrite A1. cbn. split; [tauto|]. intros [[<-|I] R]; tauto.
    - intros f. rewrite A2. split; intros (P1 & P2 & x & P3 & P4 & P5); (split; [exact P1|split; [exact P2|exists x]]); [cbn; tauto|]. destruct P3 as [<-|P3]; [contradiction|tauto].
    - intros f. rewrite A3. split; intros (P1 & P2 & x & P3 & P4 & P5); (split; [exact P1|split; [exact P2|exists x]]); [cbn; tauto|]. destruct P3 as [<-|P3]; [contradiction|tauto]. }
  assert (Ce : considered is_el is_ref e) by (apply considered_dec; exact X).
  destruct (memb Nat.eqb (formula e) seen) eqn:M.
  { (* formula already has experimental entries *)
    apply memb_iff in M. assert (AV := S _ M).
    destruct (IH seen Nl S) as (out & E & D & A1 & A2 & A3). exists out. split; [exact E|]. split; [exact D|]. split; [|split].
    - intros x. rewrite A1. cbn. split; [tauto|]. intros [[<-|I] R]; tauto.
    - intros f. rewrite A2. split; intros (P1 & P2 & x & P3 & P4 & P5); (split; [exact P1|split; [exact P2|exists x]]); [cbn; tauto|]. destruct P3 as [<-|P3]; [subst f; contradiction|tauto].
    - intros f. rewrite A3. split; intros (P1 & P2 & x & P3 & P4 & P5); (split; [exact P1|split; [exact P2|exists x]]); [cbn; tauto|]. destruct P3 as [<-|P3]; [subst f; contradiction|tauto]. }
  assert (M' : ~ In (formula e) seen) by (rewrite <- memb_iff; congruence).
  destruct (wanted_spec use_nist nist ignore_solids (formula e) nist_ok) as (n & En & Hn).
  destruct (wanted_spec use_freed freed false (formula e) freed_ok) as (r & Er & Hr).
  rewrite En. cbn [bind]. rewrite Er. cbn [bind].
  assert (New : (if use_freed then r else n) = true <-> has_nist (formula e) \/ has_freed (formula e)).
  { destruct use_freed eqn:U.
    - rewrite Hr. split; [tauto|]. intros [H|H]; [apply no_gap; [exact H|reflexivity]|exact H].
    - rewrite Hn. split; [tauto|]. intros [H|H]; [exact H|]. destruct H as (H & _). discriminate. }
  destruct (if use_freed then r else n).
  - (* experimental *)
    destruct New as [New _]. specialize (New eq_refl).
    destruct (IH (seen ++ [formula e]) Nl) as (out & E & D & A1 & A2 & A3).
    { intros f I. apply in_app_iff in I as [I|[<-|[]]]; [apply S; exact I|exact New]. }
    rewrite E. cbn [bind]. eexists. split; [reflexivity|].
    assert (Nn : ~ In (FromNist (formula e)) out) by (rewrite A2, in_app_iff; cbn; tauto).
    assert (Nf : ~ In (FromFreed (formula e)) out) by (rewrite A3, in_app_iff; cbn; tauto).
    split; [|split; [|split]].
    + destruct n, r; cbn; try exact D; repeat constructor; cbn; try exact D; intuition discriminate.
    + intros x. assert (B : In (FromPd x) (((if n then [FromNist (formula e)] else []) ++ (if r then [FromFreed (formula e)] else [])) ++ out) <-> In (FromPd x) out).
      { rewrite !in_app_iff. destruct n, r; cbn; intuition discriminate. }
      rewrite B, A1. cbn. split; [tauto|]. intros [[<-|I] R]; tauto.
    + intros f. assert (B : In (FromNist f) (((if n then [FromNist (formula e)] else []) ++ (if r then [FromFreed (formula e)] else [])) ++ out) <-> (n = true /\ f = formula e) \/ In (FromNist f) out).
      { rewrite !in_app_iff. destruct n, r; cbn; intuition congruence. }
      rewrite B, A2, Hn, in_app_iff. clear B. split.
      * intros [[P ->]|(P1 & P2 & x & P3 & P4)]; [split; [exact P|split; [exact M'|exists e; cbn; tauto]]|split; [exact P1|split; [tauto|exists x; cbn; tauto]]].
      * intros (P1 & P2 & x & P3 & P4 & P5). destruct (Nat.eq_dec f (formula e)) as [->|Nq]; [left; tauto|right]. split; [exact P1|]. split; [cbn; intuition congruence|].
        exists x. destruct P3 as [<-|P3]; [congruence|tauto].
    + intros f. assert (B : In (FromFreed f) (((if n then [FromNist (formula e)] else []) ++ (if r then [FromFreed (formula e)] else [])) ++ out) <-> (r = true /\ f = formula e) \/ In (FromFreed f) out).
      { rewrite !in_app_iff. destruct n, r; cbn; intuition congruence. }
      rewrite B, A3, Hr, in_app_iff. clear B. split.
      * intros [[P ->]|(P1 & P2 & x & P3 & P4)]; [split; [exact P|split; [exact M'|exists e; cbn; tauto]]|split; [exact P1|split; [tauto|exists x; cbn; tauto]]].
      * intros (P1 & P2 & x & P3 & P4 & P5). destruct (Nat.eq_dec f (formula e)) as [->|Nq]; [left; tauto|right]. split; [exact P1|]. split; [cbn; intuition congruence|].
        exists x. destruct P3 as [<-|P3]; [congruence|tauto].
  - (* computed *)
    assert (NA : ~ (has_nist (formula e) \/ has_freed (formula e))) by (intros H; apply New in H; discriminate).
    assert (n = false) by (destruct n; [exfalso; apply NA; left; apply Hn; reflexivity|reflexivity]).
    assert (r = false) by (destruct r; [exfalso; apply NA; right; apply Hr; reflexivity|reflexivity]). subst n r.
    destruct (build_ok e) as (u & Eu). rewrite Eu. cbn [bind].
    destruct (IH seen Nl S) as (out & E & D & A1 & A2 & A3). rewrite E. cbn [bind app]. eexists. split; [reflexivity|]. split; [|split; [|split]].
    + constructor; [rewrite A1; tauto|exact D].
    + intros x. cbn. rewrite A1. split; [intros [H|H]; [inversion H; subst; tauto|tauto]|]. intros [[<-|I] R]; [left; reflexivity|tauto].
    + intros f. cbn. rewrite A2. split; [intros [H|(P1 & P2 & x & P3 & P4)]; [discriminate|split; [exact P1|split; [exact P2|exists x; tauto]]]|].
      intros (P1 & P2 & x & P3 & P4 & P5). right. split; [exact P1|]. split; [exact P2|]. exists x. destruct P3 as [<-|P3]; [subst f; tauto|tauto].
    + intros f. cbn. rewrite A3. split; [intros [H|(P1 & P2 & x & P3 & P4)]; [discriminate|split; [exact P1|split; [exact P2|exists x; tauto]]]|].
      intros (P1 & P2 & x & P3 & P4 & P5). right. split; [exact P1|]. split; [exact P2|]. exists x. destruct P3 as [<-|P3]; [subst f; tauto|tauto].
Qed.

Lemma from_pd_spec entries : NoDup entries ->
  exists out, from_pd formula is_el is_ref nist freed use_nist use_freed ignore_solids build entries = Ok out /\ NoDup out
  /\ (forall e, In (FromPd e) out <-> In e entries /\ considered is_el is_ref e /\ ~ has_nist (formula e) /\ ~ has_freed (formula e))
  /\ (forall f, In (FromNist f) out <-> has_nist f /\ exists e, In e entries /\ considered is_el is_ref e /\ formula e = f)
  /\ (forall f, In (FromFreed f) out <-> has_freed f /\ exists e, In e entries /\ considered is_el is_ref e /\ formula e = f).
Proof.
  intros N. destruct (from_pd_loop_spec entries [] N) as (out & E & D & A1 & A2 & A3); [intros f []|]. exists out. split; [exact E|]. split; [exact D|]. split; [exact A1|]. split.
  - intros f. rewrite A2. cbn. tauto.
  - intros f. rewrite A3. cbn. tauto.
Qed.
End FromPd.

(* --- C83 --- *)
Lemma carbonate_extensive C c_el o_el gga c c' k : (0 < k)%Q -> elems C c' = elems C c -> (forall e, (amt C c' e == k * amt C c e)%Q) ->
  (carbonate C c_el o_el gga c = None /\ carbonate C c_el o_el gga c' = None)
  \/ exists n n', carbonate C c_el o_el gga c = Some n /\ carbonate C c_el o_el gga c' = Some n' /\ (n == amt C c c_el)%Q /\ (n' == k * n)%Q.
Proof.
  intros K E A. unfold carbonate. rewrite E.
  destruct (memb Nat.eqb c_el (elems C c) && memb Nat.eqb o_el (elems C c) && gga); [|left; split; reflexivity].
  assert (Z : forall e, Qeq_bool (amt C c' e) 0 = Qeq_bool (amt C c e) 0).
  { intros e. apply eq_true_iff_eq. rewrite !Qeq_bool_iff, A. split; intros H; [|rewrite H; ring]. destruct (Qmult_integral _ _ H) as [H'|H']; [lra|exact H']. }
  rewrite !Z. destruct (Qeq_bool (amt C c c_el) 0 || Qeq_bool (amt C c o_el) 0) eqn:B; [left; split; reflexivity|].
  apply orb_false_iff in B as [B1 B2]. assert (N : ~ (amt C c c_el == 0)%Q) by (intros H; apply Qeq_bool_iff in H; congruence).
  rewrite (isclose_comp (amt C c' o_el / amt C c' c_el) (amt C c o_el / amt C c c_el) 3 3); [|rewrite !A; field; split; [exact N|lra]|reflexivity].
  destruct (isclose (amt C c o_el / amt C c c_el) 3); [|left; split; reflexivity].
  right. do 2 eexists. split; [reflexivity|]. split; [reflexivity|]. split; [reflexivity|apply A].
Qed.
Lemma carbonate_iff C c_el o_el c :
  (exists n, carbonate C c_el o_el true c = Some n) <-> In c_el (elems C c) /\ In o_el (elems C c) /\ ~ (amt C c c_el == 0)%Q /\ ~ (amt C c o_el == 0)%Q /\ isclose (amt C c o_el / amt C c c_el) 3 = true.
Proof.
  unfold carbonate. rewrite andb_true_r. destruct (memb Nat.eqb c_el (elems C c)) eqn:M1; cbn [andb].
  2: { split; [intros (n & H); discriminate|]. intros (H & _). apply memb_iff in H. congruence. }
  destruct (memb Nat.eqb o_el (elems C c)) eqn:M2.
  2: { split; [intros (n & H); discriminate|]. intros (_ & H & _). apply memb_iff in H. congruence. }
  apply memb_iff in M1. apply memb_iff in M2.
  destruct (Qeq_bool (amt C c c_el) 0) eqn:Z1; cbn [orb].
  { apply Qeq_bool_iff in Z1. split; [intros (n & H); discriminate|tauto]. }
  destruct (Qeq_bool (amt C c o_el) 0) eqn:Z2; cbn [orb].
  { apply Qeq_bool_iff in Z2. split; [intros (n & H); discriminate|tauto]. }
  apply Qeq_bool_neq in Z1. apply Qeq_bool_neq in Z2.
  destruct (isclose (amt C c o_el / amt C c c_el) 3); split; intros H; try tauto; [eexists; reflexivity|destruct H as (n & H); discriminate|destruct H as (_ & _ & _ & _ & H); discriminate].
Qed.

(* what the adjustments of an entry add to its energy *)
Lemma correction_value ln l : (correction ln [] == 0)%Q
  /\ (forall name v, (correction ln (AConst name v :: l) == v + correction ln l)%Q)
  /\ (forall n per_group, (correction ln (ACarbonate n per_group :: l) == n * per_group + correction ln l)%Q)
  /\ (forall n temp p, (3 * (correction ln (ACO2 n temp p :: l) - correction ln l) == n * ((8617 # 100000000) * temp * ln p))%Q).
Proof.
  assert (E : forall a, correction ln (a :: l) = (adj_value ln a + correction ln l)%Q) by reflexivity.
  split; [reflexivity|]. split; [intros; rewrite E; reflexivity|]. split; [intros; rewrite E; cbn [adj_value]; ring|].
  intros. rewrite E. cbn [adj_value]. unfold get_dmu. ring.
Qed.
