(* The order of the queue, and nodes that are not joined. *)
From Coq Require Import Lqa Lia.
From Verif Require Import Prelude NumQ ListFacts EnumModel EnumProofs ReactionBaseProofs NetModel NetSpec YenModel YenSpec YenProofs.
Open Scope nat_scope.

Lemma lex_dictionary a b : lex_ltb a b = true <-> dictionary a b.
Proof.
  revert b. induction a as [|x a IH]; intros [|y b]; cbn [lex_ltb].
  - split; [discriminate|]. intros [(y & b' & E)|(p & x & a' & y & b' & E & _)]; [discriminate E|destruct p; discriminate E].
  - split; [|reflexivity]. intros _. left. exists y, b. reflexivity.
  - split; [discriminate|]. intros [(y & b' & E)|(p & z & a' & y & b' & _ & E & _)]; [discriminate E|destruct p; discriminate E].
  - rewrite orb_true_iff, andb_true_iff, Nat.ltb_lt, Nat.eqb_eq, IH. split.
    + intros [L|[-> [(z & b' & ->)|(p & u & a' & v & b' & -> & -> & L)]]].
      * right. exists [], x, a, y, b. auto.
      * left. exists z, b'. reflexivity.
      * right. exists (y :: p), u, a', v, b'. auto.
    + intros [(z & b' & E)|(p & u & a' & v & b' & E & F & L)].
      * cbn in E. injection E as -> ->. right. split; [reflexivity|]. left. exists z, b'. reflexivity.
      * destruct p as [|w p]; cbn in E, F; injection E as -> ->; injection F as -> ->; [left; exact L|].
        right. split; [reflexivity|]. right. exists p, u, a', v, b'. auto.
Qed.
Lemma item_sooner x y : item_ltb x y = true <-> sooner x y.
Proof. unfold item_ltb, sooner. rewrite orb_true_iff, andb_true_iff, Qlt_bool_iff', Qeq_bool_iff, lex_dictionary. reflexivity. Qed.
Lemma lex_irrefl a : lex_ltb a a = false.
Proof. induction a as [|x a IH]; [reflexivity|]. cbn [lex_ltb]. rewrite Nat.ltb_irrefl, IH, andb_false_r. reflexivity. Qed.
Lemma lex_trans a b c : lex_ltb a b = true -> lex_ltb b c = true -> lex_ltb a c = true.
Proof.
  revert b c. induction a as [|x a IH]; intros [|y b] [|z c]; cbn [lex_ltb]; try discriminate; try reflexivity.
  rewrite !orb_true_iff, !andb_true_iff, !Nat.ltb_lt, !Nat.eqb_eq. intros [A|[-> A]] [B|[-> B]]; [left; lia|left; lia|left; lia|]. right. split; [reflexivity|]. exact (IH b c A B).
Qed.
Lemma lex_total a b : lex_ltb a b = true \/ a = b \/ lex_ltb b a = true.
Proof.
  revert b. induction a as [|x a IH]; intros [|y b]; cbn [lex_ltb]; [right; left; reflexivity|left; reflexivity|right; right; reflexivity|].
  destruct (Nat.lt_trichotomy x y) as [L|[->|L]].
  - left. apply Nat.ltb_lt in L. rewrite L. reflexivity.
  - rewrite Nat.ltb_irrefl, Nat.eqb_refl. cbn. destruct (IH b) as [H|[->|H]]; [left; exact H|right; left; reflexivity|right; right; exact H].
  - right. right. apply Nat.ltb_lt in L. rewrite L. reflexivity.
Qed.
Lemma sooner_irrefl x : ~ sooner x x.
Proof. intros [L|[_ L]]; [lra|]. apply lex_dictionary in L. rewrite lex_irrefl in L. discriminate L. Qed.
Lemma sooner_trans x y z : sooner x y -> sooner y z -> sooner x z.
Proof.
  intros [A|[A DA]] [B|[B DB]]; [left; lra|left; lra|left; lra|]. right. split; [lra|]. apply lex_dictionary in DA, DB. apply lex_dictionary. exact (lex_trans _ _ _ DA DB).
Qed.
(* If z is sooner than x then it is sooner than m, or m is sooner than x. *)
Lemma sooner_between z x m : sooner z x -> sooner z m \/ sooner m x.
Proof.
  unfold sooner. intros [A|[A D]].
  - destruct (Qlt_le_dec (fst z) (fst m)) as [L|L]; [left; left; exact L|right; left; lra].
  - destruct (Q_dec (fst z) (fst m)) as [[L|L]|L]; [left; left; exact L|right; left; lra|].
    apply lex_dictionary in D. destruct (lex_total (snd z) (snd m)) as [T|[T|T]].
    + left. right. split; [exact L|]. apply lex_dictionary, T.
    + right. right. split; [lra|]. rewrite <- T. apply lex_dictionary, D.
    + right. right. split; [lra|]. apply lex_dictionary. exact (lex_trans _ _ _ T D).
Qed.
Lemma pop_min_first x b : forall m rest, pop_min x b = (m, rest) -> forall y, In y (x :: b) -> ~ sooner y m.
Proof.
  revert x. induction b as [|z b IH]; intros x m rest; cbn [pop_min].
  - intros H. injection H as <- <-. intros y [<-|[]]. apply sooner_irrefl.
  - destruct (pop_min z b) as [m' rest'] eqn:P. specialize (IH z m' rest' P). destruct (item_ltb m' x) eqn:C; intros H; injection H as <- <-; intros y [<-|Hy].
    + apply item_sooner in C. intros S. exact (sooner_irrefl _ (sooner_trans _ _ _ S C)).
    + apply IH, Hy.
    + apply sooner_irrefl.
    + intros S. destruct (sooner_between y x m' S) as [T|T]; [exact (IH y Hy T)|]. apply item_sooner in T. congruence.
Qed.
Lemma memb_paths p a : memb list_eqb p a = true <-> In p a.
Proof.
  unfold memb. rewrite existsb_exists. split.
  - intros (q & I & E). apply list_eqb_iff in E. subst q. exact I.
  - intros I. exists p. split; [exact I|]. apply list_eqb_iff. reflexivity.
Qed.
Theorem queue_order : forall a b o rest, take_new (length b) a b = (o, rest) ->
  match o with
  | Some p => ~ In p a /\ exists c, In (c, p) b /\ forall x, In x b -> ~ In (snd x) a -> ~ sooner x (c, p)
  | None => forall x, In x b -> In (snd x) a
  end.
Proof.
  intros a b. remember (length b) as n eqn:L. revert b L. induction n as [|n IH]; intros b L o rest.
  - destruct b; [|discriminate L]. cbn. intros E. injection E as <- <-. intros x [].
  - destruct b as [|x b]; [discriminate L|]. cbn [take_new]. destruct (pop_min x b) as [m others] eqn:P.
    assert (M := pop_min_first x b m others P). apply pop_min_perm in P.
    destruct (memb list_eqb (snd m) a) eqn:S.
    + intros E. apply IH in E; [|apply Permutation_length in P; cbn in P, L; lia]. apply memb_paths in S.
      assert (SPLIT : forall y, In y (x :: b) -> y = m \/ In y others) by (intros y Y; apply (Permutation_in y P) in Y as [->|Y]; [left; reflexivity|right; exact Y]).
      destruct o as [p|].
      * destruct E as [N (c & I & F)]. split; [exact N|]. exists c. split; [apply (Permutation_in _ (Permutation_sym P)); right; exact I|].
        intros y Y NY. destruct (SPLIT y Y) as [->|Y']; [destruct (NY S)|exact (F y Y' NY)].
      * intros y Y. destruct (SPLIT y Y) as [->|Y']; [exact S|exact (E y Y')].
    + intros E. injection E as <- <-. split; [intros I; apply memb_paths in I; congruence|]. exists (fst m). rewrite <- surjective_pairing.
      split; [apply (Permutation_in _ (Permutation_sym P)); left; reflexivity|]. intros y Y _. exact (M y Y).
Qed.

(* --- nodes that are not joined --- *)
Section Missing.
Variable cost : nrxn -> Q.
Lemma edge_data_cases {E} (es : list (nat * nat * E)) i j : (exists e, edge_data es i j = Ok e /\ In (i, j, e) es) \/ (edge_data es i j = Err NoEdgeBetweenNodes /\ forall e, ~ In (i, j, e) es).
Proof.
  unfold edge_data. destruct (find (joins i j) es) as [[[u v] e]|] eqn:F.
  - apply find_some in F as [I J]. unfold joins in J. cbn in J. apply andb_prop in J as [A B]. apply Nat.eqb_eq in A, B. subst u v. left. exists e. auto.
  - right. split; [reflexivity|]. intros e I. apply (find_none _ _ F) in I. unfold joins in I. cbn in I. rewrite !Nat.eqb_refl in I. discriminate I.
Qed.
Definition gap (g : net) (i j : nat) : Prop := (exists x, has g j (Products, x)) /\ forall e, ~ In (i, j, e) (g_edges g).
Lemma path_from_missing (g : net) p : (forall i, In i p -> exists n, has g i n) -> forall prev,
  (exists l, path_from cost g prev p = Ok l /\ forall a i j b, prev :: p = a ++ i :: j :: b -> ~ gap g i j)
  \/ (path_from cost g prev p = Err NoEdgeBetweenNodes /\ exists a i j b, prev :: p = a ++ i :: j :: b /\ gap g i j).
Proof.
  induction p as [|j p IH]; intros H prev.
  - left. exists []. split; [reflexivity|]. intros a i j b E. destruct a as [|? [|? a]]; discriminate E.
  - cbn [path_from]. destruct (H j (or_introl eq_refl)) as [n N]. assert (NA : node_at g j = Some n) by (unfold node_at; rewrite N; reflexivity). rewrite NA.
    specialize (IH (fun i I => H i (or_intror I)) j).
    assert (UNI : forall m, has g j m -> m = n) by (intros m M; unfold has in *; congruence).
    assert (SHIFT : (exists a i k b, j :: p = a ++ i :: k :: b /\ gap g i k) -> exists a i k b, prev :: j :: p = a ++ i :: k :: b /\ gap g i k).
    { intros (a & i & k & b & E & G). exists (prev :: a), i, k, b. rewrite E. auto. }
    assert (BOTH : ~ gap g prev j -> (forall a i k b, j :: p = a ++ i :: k :: b -> ~ gap g i k) -> forall a i k b, prev :: j :: p = a ++ i :: k :: b -> ~ gap g i k).
    { intros G F a i k b E. destruct a as [|u a]; cbn in E; [injection E as <- <- _; exact G|]. injection E as _ E. exact (F a i k b E). }
    destruct (ntype_eqb (fst n) Products) eqn:T.
    + assert (TP : exists x, n = (Products, x)) by (destruct n as [[] x]; try discriminate T; exists x; reflexivity). destruct TP as [x ->].
      destruct (edge_data_cases (g_edges g) prev j) as [(e & D & I)|[D NI]]; rewrite D; cbn [bind].
      * destruct IH as [(l & E & F)|[E F]]; rewrite E; cbn [bind]; [left|right; split; [reflexivity|apply SHIFT, F]].
        eexists. split; [reflexivity|]. apply BOTH; [|exact F]. intros [_ G]. exact (G e I).
      * right. split; [reflexivity|]. exists [], prev, j, p. split; [reflexivity|]. split; [exists x; exact N|exact NI].
    + destruct IH as [(l & E & F)|[E F]]; [left; exists l; split; [exact E|]|right; split; [exact E|apply SHIFT, F]].
      apply BOTH; [|exact F]. intros [[x G] _]. apply UNI in G. subst n. discriminate T.
Qed.
Lemma after_last (p : list nat) i j : comes_after p i j <-> p <> [] /\ exists a b, last p 0 :: p = a ++ i :: j :: b.
Proof.
  split.
  - intros [(a & b & E)|(b & E & c & F)].
    + split; [destruct a; subst p; discriminate|]. exists (last p 0 :: a), b. rewrite E at 2. reflexivity.
    + split; [subst p; discriminate|]. exists [], b. cbn. rewrite F at 1. rewrite last_last. rewrite E. reflexivity.
  - intros [N (a & b & E)]. destruct a as [|u a]; cbn in E; injection E as E F.
    + right. exists b. split; [exact F|]. rewrite <- E. exists (removelast p). apply app_removelast_last, N.
    + left. exists a, b. exact F.
Qed.
Theorem missing_edge : forall (g : net) p, (forall i, In i p -> exists n, has g i n) ->
  (path_from_graph cost g p = Err NoEdgeBetweenNodes <-> exists i j x, comes_after p i j /\ has g j (Products, x) /\ forall e, ~ In (i, j, e) (g_edges g))
  /\ (path_from_graph cost g p <> Err NoEdgeBetweenNodes -> exists l, path_from_graph cost g p = Ok l).
Proof.
  intros g p H. unfold path_from_graph. destruct p as [|k p].
  - split; [|intros _; exists []; reflexivity]. split; [discriminate|]. intros (i & j & x & [(a & b & E)|(b & E & _)] & _); [destruct a; discriminate E|discriminate E].
  - destruct (path_from_missing g (k :: p) H (last (k :: p) 0)) as [(l & E & F)|[E (a & i & j & b & D & (x & X) & NI)]]; rewrite E.
    + split; [|intros _; exists l; reflexivity]. split; [discriminate|]. intros (i & j & x & A & X & NI). apply after_last in A as (_ & a & b & D). destruct (F a i j b D).
      split; [exists x; exact X|exact NI].
    + split; [|intros N; destruct (N eq_refl)]. split; [|reflexivity]. intros _. exists i, j, x. split; [|split; [exact X|exact NI]]. apply after_last. split; [discriminate|]. exists a, b. exact D.
Qed.
End Missing.
