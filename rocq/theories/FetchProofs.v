(* Proofs for C131. *)
From Coq Require Import String.
From Verif Require Import Prelude NumQ ListFacts ReactionModel RxnSetModel RxnSetSpec RxnSetBaseProofs RxnSetProofs RxnSetTempProofs FrameModel FetchModel FetchSpec.
Open Scope nat_scope.
Open Scope list_scope.

Lemma opt_nat : forall a b, opt_eqb Nat.eqb a b = true <-> a = b.
Proof. intros [a|] [b|]; cbn; try rewrite Nat.eqb_eq; split; congruence. Qed.
Lemma matches_spec : forall target oe q fw t, matches target oe q fw t = true <-> answers target oe q fw t.
Proof.
  intros target oe q fw t. unfold matches, answers. rewrite !andb_true_iff, !opt_nat.
  assert (A : opt_eqb Qeq_bool (t_chempot t) (Some q) = true <-> exists q', t_chempot t = Some q' /\ (q' == q)%Q).
  { destruct (t_chempot t) as [x|]; cbn.
    - rewrite Qeq_bool_iff. split; [intros H; exists x; split; [reflexivity|exact H]|intros (y & E & H); injection E as ->; exact H].
    - split; [discriminate|intros (y & E & _); discriminate]. }
  rewrite A. assert (B : match fw with Some _ => opt_eqb Nat.eqb (t_fw t) fw | None => true end = true <-> fw = None \/ t_fw t = fw).
  { destruct fw as [f|]; [rewrite opt_nat; split; [auto|intros [H|H]; [discriminate|exact H]]|split; auto]. }
  rewrite B. tauto.
Qed.
Lemma newest : forall l b, exists t, fold_left newer l (Some b) = Some t /\ (t = b \/ In t l) /\ (t_time b <= t_time t)%Z
  /\ forall t', In t' l -> (t_time t' <= t_time t)%Z.
Proof.
  induction l as [|x l IH]; intros b; cbn.
  - exists b. repeat split; [left; reflexivity|lia|intros t' []].
  - destruct (Z.ltb (t_time b) (t_time x)) eqn:E.
    + apply Z.ltb_lt in E. destruct (IH x) as (t & F & I & L & G). exists t. split; [exact F|]. split; [destruct I as [->|I]; auto|].
      split; [lia|]. intros t' [<-|I']; [exact L|exact (G t' I')].
    + apply Z.ltb_ge in E. destruct (IH b) as (t & F & I & L & G). exists t. split; [exact F|]. split; [destruct I as [->|I]; auto|].
      split; [exact L|]. intros t' [<-|I']; [lia|exact (G t' I')].
Qed.
Lemma query_spec : forall target oe q fw tasks,
  (query_one target oe q fw tasks = None /\ forall t, In t tasks -> ~ answers target oe q fw t)
  \/ exists t, query_one target oe q fw tasks = Some t /\ latest target oe q fw tasks t.
Proof.
  intros target oe q fw tasks. unfold query_one.
  assert (F : forall t, In t (filter (matches target oe q fw) tasks) <-> In t tasks /\ answers target oe q fw t).
  { intros t. rewrite filter_In, matches_spec. reflexivity. }
  destruct (filter (matches target oe q fw) tasks) as [|b l].
  - left. split; [reflexivity|]. intros t I A. apply (proj2 (F t)). split; assumption.
  - right. cbn. destruct (newest l b) as (t & E & I & L & G). exists t. split; [exact E|].
    assert (J : In t (b :: l)) by (destruct I as [->|I]; [left; reflexivity|right; exact I]).
    apply F in J. split; [apply J|]. split; [apply J|]. intros t' I' A'.
    assert (J' : In t' (b :: l)) by (apply F; split; assumption). destruct J' as [<-|J']; [exact L|exact (G t' J')].
Qed.


Theorem fetch_closed : forall arrange tasks target q fw,
  (exists t, latest target None q fw tasks t /\ get_rxns_from_db arrange tasks (Ok target) None q fw = Ok (t_rxns t))
  \/ ((forall t, In t tasks -> ~ answers target None q fw t) /\ get_rxns_from_db arrange tasks (Ok target) None q fw = Err ValueError).
Proof.
  intros arrange tasks target q fw. unfold get_rxns_from_db. cbn [bind]. destruct (query_spec target None q fw tasks) as [(E & N)|(t & E & L)]; rewrite E.
  - right. split; [exact N|reflexivity].
  - left. exists t. split; [exact L|reflexivity].
Qed.
Theorem fetch_open : forall arrange tasks target el q fw, arranges arrange ->
  (forall t, In t tasks -> well_formed (t_rxns t) /\ ids_distinct (t_rxns t)) ->
  (exists t rs s out, latest target (Some el) q fw tasks t /\ get_rxns (t_rxns t) = Ok rs
   /\ get_rxns_from_db arrange tasks (Ok target) (Some el) q fw = Ok s /\ well_formed s /\ get_rxns s = Ok out
   /\ Permutation out (map (with_mu (Some [(el, q)])) rs)
   /\ (r_open (t_rxns t) = Some el -> r_chempot (t_rxns t) = q -> Permutation out rs))
  \/ ((forall t, In t tasks -> ~ answers target (Some el) q fw t) /\ get_rxns_from_db arrange tasks (Ok target) (Some el) q fw = Err ValueError).
Proof.
  intros arrange tasks target el q fw Ha W. unfold get_rxns_from_db. cbn [bind].
  destruct (query_spec target (Some el) q fw tasks) as [(E & N)|(t & E & L)]; rewrite E; [right; split; [exact N|reflexivity]|].
  left. destruct L as (It & At & Mt). destruct (W t It) as (Wt & Dt). set (s0 := t_rxns t) in *.
  pose proof (get_rxns_rows s0 Wt) as G. set (rs := map (rxn_at s0) (rows s0)) in *.
  assert (Hin : forall r e, In r rs -> In e (x_entries r) -> In e (r_entries s0)).
  { intros r e Hr He. unfold rs in Hr. apply in_map_iff in Hr as (w & <- & Hw). exact (rows_entries s0 w e Wt Hw He). }
  destruct (from_rxns_spec arrange rs [] (Some el) q Ha) as (s & out & E1 & E2 & E3 & E4 & _ & _ & _ & E8).
  - left. reflexivity.
  - assert (I : forall x, In x ([] ++ all_entries rs) -> In x (r_entries s0)).
    { intros x Hx. cbn in Hx. apply in_flat_map in Hx as (r & Hr & Hx). exact (Hin r x Hr Hx). }
    intros x y Hx Hy. apply Dt; apply I; assumption.
  - intros r Hr. unfold rs in Hr. apply in_map_iff in Hr as (w & <- & Hw). unfold rxn_at. cbn [x_coeffs x_entries].
    rewrite map_length. apply (rows_range s0 w Wt Hw).
  - exists t, rs, s, out. split; [split; [exact It|split; assumption]|]. split; [exact G|]. split; [fold s0; rewrite G; exact E1|].
    split; [exact E2|]. split; [exact E3|]. cbn [spec_mu] in E8. rewrite E8 in E4. split; [exact E4|].
    intros Eo Ec. rewrite with_mu_id in E4; [exact E4|]. intros r Hr. unfold rs in Hr. apply in_map_iff in Hr as (w & <- & _).
    fold s0 in Eo, Ec. cbn. unfold mu_dict. rewrite Eo, Ec. reflexivity.
Qed.

(* --- the table --- *)
Lemma column_in : forall k d col, NoDup (map fst d) -> In (k, col) d -> column k d = Ok col.
Proof.
  intros k. induction d as [|[k' v] d IH]; intros col N I; [destruct I|]. inversion N as [|? ? N1 N2]; subst. cbn.
  destruct I as [I|I].
  - injection I as -> ->. rewrite String.eqb_refl. reflexivity.
  - destruct (String.eqb k k') eqn:E; [|exact (IH col N2 I)]. apply String.eqb_eq in E. subst k'.
    exfalso. apply N1. apply in_map_iff. exists (k, col). split; [reflexivity|exact I].
Qed.
Fixpoint marked_at (n : nat) (marks : list bool) : list nat :=
  match marks with [] => [] | b :: m => (if b then [n] else []) ++ marked_at (S n) m end.
Lemma marked_at_in : forall marks n i, In i (marked_at n marks) <-> n <= i /\ nth_error marks (i - n) = Some true.
Proof.
  induction marks as [|b m IH]; intros n i; cbn [marked_at].
  - split; [intros []|]. intros (_ & H). destruct (i - n); discriminate.
  - rewrite in_app_iff, IH. destruct (Nat.eq_dec i n) as [->|D].
    + rewrite Nat.sub_diag. cbn [nth_error]. destruct b; cbn; split; intros H; try lia; intuition (try lia; try discriminate).
    + split.
      * intros [H|(H & E)]; [destruct b; [destruct H as [H|[]]; congruence|destruct H]|]. split; [lia|].
        replace (i - n) with (S (i - S n)) by lia. exact E.
      * intros (H & E). right. split; [lia|]. replace (i - n) with (S (i - S n)) in E by lia. exact E.
Qed.
Lemma marked_at_above : forall marks n, Forall (fun i => n <= i) (marked_at n marks).
Proof. intros marks n. apply Forall_forall. intros i I. apply marked_at_in in I. apply I. Qed.
Lemma marked_at_increasing : forall marks n, increasing (marked_at n marks).
Proof.
  induction marks as [|b m IH]; intros n i j x y L X Y; cbn [marked_at] in *; [destruct i; discriminate|].
  destruct b; [|exact (IH (S n) i j x y L X Y)]. cbn [app] in *. destruct i as [|i].
  - cbn in X. injection X as <-. destruct j as [|j]; [lia|]. cbn in Y. apply nth_error_In in Y.
    exact (proj1 (Forall_forall _ _) (marked_at_above m (S n)) y Y).
  - destruct j as [|j]; [lia|]. cbn in X, Y. eapply (IH (S n) i j); [lia|exact X|exact Y].
Qed.
Lemma keep_rows_marked {A} : forall marks (col pre : list A), length marks = length col ->
  Forall2 (fun i c => nth_error (pre ++ col) i = Some c) (marked_at (length pre) marks) (keep_rows marks col).
Proof.
  induction marks as [|b m IH]; intros col pre L; destruct col as [|c col]; try discriminate; [constructor|].
  cbn [marked_at]. unfold keep_rows. cbn [combine flat_map fst snd]. apply Forall2_app.
  - destruct b; [|constructor]. constructor; [|constructor]. rewrite nth_error_app2 by lia. rewrite Nat.sub_diag. reflexivity.
  - cbn in L. specialize (IH col (pre ++ [c])). rewrite app_length in IH. cbn [length] in IH. rewrite Nat.add_1_r in IH.
    rewrite <- app_assoc in IH. cbn [app] in IH. apply IH. lia.
Qed.

Theorem filter_spec : forall reactants no_rows n d precursors, table_of n d -> 0 < n ->
  exists l d', increasing l
  /\ (forall i, In i l <-> exists r, shows d i r /\ forall f, In f (reactants r) -> In f precursors)
  /\ filter_df reactants no_rows d precursors = Ok d'
  /\ Forall2 (fun old new => fst new = fst old /\ chosen_rows l (snd old) (snd new))
       (filter (fun kc => negb (String.eqb (fst kc) "precursors")) d) d'.
Proof.
  intros reactants no_rows n d precursors (N & L & ids & I) P.
  set (mark := fun i => forallb (fun p => memb Nat.eqb p precursors) (reactants i)).
  assert (M : forall i, mark i = true <-> forall f, In f (reactants i) -> In f precursors).
  { intros i. unfold mark. rewrite forallb_forall. split; intros H f J.
    - specialize (H f J). unfold memb in H. apply existsb_exists in H as (x & Ix & E). apply Nat.eqb_eq in E. subst x. exact Ix.
    - unfold memb. apply existsb_exists. exists f. split; [exact (H f J)|apply Nat.eqb_refl]. }
  set (marks := map mark ids).
  assert (Ln : length ids = n) by (rewrite <- (map_length Rxn ids); exact (L _ _ I)).
  exists (marked_at 0 marks). eexists. split; [apply marked_at_increasing|]. split.
  - intros i. rewrite marked_at_in, Nat.sub_0_r. unfold marks. split.
    + intros (_ & H). rewrite nth_error_map in H. destruct (nth_error ids i) as [r|] eqn:E; [|discriminate]. cbn in H. injection H as H.
      exists r. split; [|apply M; exact H]. exists (map Rxn ids). split; [exact I|]. rewrite nth_error_map, E. reflexivity.
    + intros (r & (col & Ic & E) & H). split; [lia|]. assert (col = map Rxn ids).
      { apply (column_in _ _ _ N) in Ic. apply (column_in _ _ _ N) in I. congruence. }
      subst col. rewrite nth_error_map in *. destruct (nth_error ids i) as [x|]; [|discriminate]. cbn in *. injection E as ->. f_equal. apply M. exact H.
  - split.
    + unfold filter_df. rewrite (column_in _ _ _ N I). cbn [bind].
      replace (mapM as_rxn (map Rxn ids)) with (Ok ids).
      2:{ clear. induction ids as [|x ids IH]; [reflexivity|]. cbn. rewrite <- IH. reflexivity. }
      cbn [bind]. destruct ids as [|x ids']; [cbn in Ln; lia|]. fold mark. fold marks. reflexivity.
    + assert (Lc : forall kc, In kc (filter (fun kc => negb (String.eqb (fst kc) "precursors")) d) -> length (snd kc) = n).
      { intros [k c] J. apply filter_In in J. exact (L k c (proj1 J)). }
      revert Lc. generalize (filter (fun kc : string * list cell => negb (String.eqb (fst kc) "precursors")) d). clear - Ln.
      induction l as [|kc l IH]; intros Lc; cbn; constructor.
      * cbn. split; [reflexivity|]. unfold chosen_rows. apply (keep_rows_marked marks (snd kc) []).
        unfold marks. rewrite map_length, Ln. symmetry. apply Lc. left. reflexivity.
      * apply IH. intros k J. apply Lc. right. exact J.
Qed.

(* A table without reactions, or a cell that holds none. *)
Lemma column_none : forall k d, ~ In k (map fst d) -> column k d = Err KeyError.
Proof.
  intros k d. induction d as [|[k' v] d IH]; cbn; intros H; [reflexivity|]. destruct (String.eqb_spec k k') as [->|_]; [exfalso; apply H; left; reflexivity|]. apply IH. intros I. apply H. right. exact I.
Qed.
Theorem filter_fails : forall reactants no_rows d precursors,
  (~ In "rxn"%string (map fst d) -> filter_df reactants no_rows d precursors = Err KeyError)
  /\ forall col c, NoDup (map fst d) -> In ("rxn"%string, col) d -> In c col -> (forall r, c <> Rxn r) -> filter_df reactants no_rows d precursors = Err AttributeError.
Proof.
  intros reactants no_rows d precursors. split; [intros H; unfold filter_df; rewrite (column_none _ _ H); reflexivity|].
  intros col c N I Ic Hc. unfold filter_df. rewrite (column_in _ _ _ N I). cbn [bind].
  destruct (mapM as_rxn col) as [ids|e] eqn:E; cbn [bind].
  - destruct (mapM_fails as_rxn col c AttributeError Ic) as (e & F); [destruct c; try reflexivity; exfalso; exact (Hc i eq_refl)|congruence].
  - apply mapM_err in E as (c' & _ & E). destruct c'; cbn in E; congruence.
Qed.
