(* C125: the energy of a computed entry. *)
From Coq Require Import Lqa Qround.
From Verif Require Import Prelude NumQ ListFacts SumQ UtilsModel ReactionModel ReactionSpec ParetoProofs RxnSetBaseProofs GibbsModel GibbsSpec GibbsProofs GibbsMassProofs GibbsEntryProofs GibbsMoreProofs.
Open Scope nat_scope.

Lemma line_sum {A} (w lo hi : A -> Q) x1 x2 x l : ~ (x2 - x1 == 0)%Q ->
  (sumQ (fun a => w a * on_line x1 (lo a) x2 (hi a) x) l == on_line x1 (sumQ (fun a => w a * lo a) l) x2 (sumQ (fun a => w a * hi a) l) x)%Q.
Proof.
  intros N. induction l as [|a l IH]; [change (0 == on_line x1 0 x2 0 x)%Q; unfold on_line; field; exact N|]. rewrite !sumQ_cons, IH. unfold on_line. field. exact N.
Qed.
Lemma line_start x1 y1 x2 y2 x : ~ (x2 - x1 == 0)%Q -> (x == x1)%Q -> (on_line x1 y1 x2 y2 x == y1)%Q.
Proof. intros N E. unfold on_line. rewrite E. field. exact N. Qed.
Lemma line_end x1 y1 x2 y2 x : ~ (x2 - x1 == 0)%Q -> (x == x2)%Q -> (on_line x1 y1 x2 y2 x == y2)%Q.
Proof. intros N E. unfold on_line. rewrite E. field. exact N. Qed.
Lemma rows_apart k : ~ (inject_Z (100 * (k + 1)) - inject_Z (100 * k) == 0)%Q.
Proof. unfold Qeq, Qminus, Qplus, Qopp, inject_Z. cbn [Qnum Qden]. lia. Qed.

Section Value.
Variable ln : Q -> Q.
Variable C : chem.
Variable mass : nat -> Q.
Variable table : list (Z * list (nat * Q)).
Variable default_id : nat -> Q -> nat.
Variable val : Z -> nat -> Q.
Hypothesis W : wf_chem C.
Notation init := (gibbs_init ln C mass table default_id).

Lemma sum_elemental c t k s : tabulates table (elems C c) val -> in_range t -> (3 <= k <= 19)%Z ->
  (inject_Z (100 * k) <= pyval t <= inject_Z (100 * (k + 1)))%Q -> sum_g_i table (el_amts C c) t = Ok s ->
  (s == sumQ (fun e => amt C c e * elemental val k (pyval t) e) (elems C c))%Q.
Proof.
  intros T R Hk [K1 K2] S. unfold elemental. rewrite line_sum by apply rows_apart.
  assert (Wt : forall z, (weighted (val z) (el_amts C c) == sumQ (fun e => amt C c e * val z e) (elems C c))%Q) by (intros z; apply weighted_el).
  destruct (off_grid t) eqn:O.
  - assert (Ng := O). apply off_grid_iff in Ng.
    destruct (sum_between table (elems C c) val T (el_amts C c) t (Qfloor (pyval t / 100)) (el_amts_in C c) R Ng eq_refl) as (s' & E & V).
    rewrite E in S. injection S as <-.
    assert (F : Qfloor (pyval t / 100) = k).
    { assert (L := Qfloor_le (pyval t / 100)). assert (U := Qlt_floor (pyval t / 100)).
      assert (A : (inject_Z (100 * k) < pyval t)%Q).
      { apply Qle_lteq in K1 as [K1|K1]; [exact K1|]. exfalso. apply Ng. exists k. rewrite K1. reflexivity. }
      assert (B : (pyval t < inject_Z (100 * (k + 1)))%Q).
      { apply Qle_lteq in K2 as [K2|K2]; [exact K2|]. exfalso. apply Ng. exists (k + 1)%Z. rewrite K2. reflexivity. }
      assert (D : (pyval t == 100 * (pyval t / 100))%Q) by field. set (q := (pyval t / 100)%Q) in *.
      rewrite D in A, B. rewrite inject_Z_mult in A, B. change (inject_Z 100) with 100%Q in A, B.
      assert (A' : (inject_Z k < q)%Q) by lra. assert (B' : (q < inject_Z (k + 1))%Q) by lra.
      assert (L1 : (inject_Z (Qfloor q) < inject_Z (k + 1))%Q) by lra. assert (L2 : (inject_Z k < inject_Z (Qfloor q + 1))%Q) by lra.
      rewrite <- Zlt_Qlt in L1, L2. lia. }
    rewrite F in V. rewrite V. unfold on_line. rewrite !Wt. reflexivity.
  - assert (G := O). apply off_grid_false in G. destruct t as [z|q].
    + apply int_on_grid in G as [j ->]. cbn [pyval] in *.
      rewrite <- Zle_Qle in K1, K2.
      assert (J : j = k \/ j = (k + 1)%Z) by lia.
      destruct (sum_grid table (elems C c) val T (el_amts C c) j (el_amts_in C c)) as (s' & E & V); [lia|]. rewrite E in S. injection S as <-.
      rewrite V, Wt. destruct J as [->| ->]; symmetry; [apply line_start|apply line_end]; first [apply rows_apart|reflexivity].
    + unfold sum_g_i in S. rewrite O in S. unfold el_amts in S. destruct (elems C c) as [|e l] eqn:El; [|discriminate].
      cbn in S. injection S as <-. change (0 == on_line (inject_Z (100 * k)) 0 (inject_Z (100 * (k + 1))) 0 q)%Q. unfold on_line. field. apply rows_apart.
Qed.

(* C125 *)
Theorem entry_value c dhf v t l id e : tabulates table (elems C c) val -> 2 <= length (elems C c) ->
  (forall x, In x (elems C c) -> (0 < mass x)%Q) -> (0 < v)%Q -> (forall w, ~ In (AConst Sisso w) l) ->
  init c dhf v t (Some l) id = Ok e -> forall k, (3 <= k <= 19)%Z -> (inject_Z (100 * k) <= pyval t <= inject_Z (100 * (k + 1)))%Q ->
  (gibbs_energy ln C e == bartel ln mass (amt C c) (elemental val k (pyval t)) (elems C c) dhf v (pyval t) + correction ln l)%Q.
Proof.
  intros T L Pm Hv Ns I k Hk K.
  assert (R : in_range t).
  { unfold gibbs_init in I. destruct (Qlt_bool (pyval t) 300 || Qlt_bool 2000 (pyval t)) eqn:B; [discriminate|]. apply range_bool. exact B. }
  destruct (init_energy ln C mass table default_id c dhf v t (Some l) id e I) as (w & A & V).
  assert (F : filter (fun a => negb (is_sisso a)) l = l).
  { clear -Ns. induction l as [|a l IH]; [reflexivity|]. cbn [filter]. destruct (is_sisso a) eqn:S; cbn [negb].
    - exfalso. destruct a as [[|n] w| |]; try discriminate. apply (Ns w). left. reflexivity.
    - rewrite IH; [reflexivity|]. intros w H. apply (Ns w). right. exact H. }
  rewrite F in V. rewrite V. unfold gibbs_adjustment, is_element in A.
  replace (Nat.eqb (length (elems C c)) 1) with false in A by (symmetry; apply Nat.eqb_neq; lia).
  destruct (reduced_mass_value mass C c W L Pm) as (rm & E & Er & _). rewrite E in A. cbn [bind] in A.
  destruct (sum_g_i table (el_amts C c) t) as [s|x] eqn:S; cbn [bind] in A; [|discriminate]. injection A as <-.
  rewrite (sum_elemental c t k s T R Hk K S). unfold bartel, g_delta_sisso. rewrite Er.
  assert (N : (natoms C c == sumQ (amt C c) (elems C c))%Q) by (unfold natoms; rewrite Qsum_sumQ, sumQ_map; reflexivity).
  rewrite N. unfold Qdiv. ring.
Qed.
Theorem element_value c dhf v t l id e : length (elems C c) = 1 -> (forall w, ~ In (AConst Sisso w) l) ->
  init c dhf v t (Some l) id = Ok e -> (gibbs_energy ln C e == sumQ (amt C c) (elems C c) * dhf + correction ln l)%Q.
Proof.
  intros L Ns I. destruct (init_energy ln C mass table default_id c dhf v t (Some l) id e I) as (w & A & V).
  assert (F : filter (fun a => negb (is_sisso a)) l = l).
  { clear -Ns. induction l as [|a l IH]; [reflexivity|]. cbn [filter]. destruct (is_sisso a) eqn:S; cbn [negb].
    - exfalso. destruct a as [[|n] w| |]; try discriminate. apply (Ns w). left. reflexivity.
    - rewrite IH; [reflexivity|]. intros w H. apply (Ns w). right. exact H. }
  rewrite F in V. rewrite V. unfold gibbs_adjustment, is_element in A. rewrite L in A. cbn in A. injection A as <-.
  assert (N : (natoms C c == sumQ (amt C c) (elems C c))%Q) by (unfold natoms; rewrite Qsum_sumQ, sumQ_map; reflexivity).
  rewrite N. ring.
Qed.
End Value.

Theorem compound_energy : forall ln C mass table default_id val, wf_chem C -> forall c dhf v t adjs id e,
  tabulates table (elems C c) val -> 2 <= length (elems C c) -> (forall x, In x (elems C c) -> (0 < mass x)%Q) -> (0 < v)%Q ->
  forall others, adjs = Some others \/ adjs = None /\ others = [] -> (forall w, ~ In (AConst Sisso w) others) ->
  gibbs_init ln C mass table default_id c dhf v t adjs id = Ok e ->
  forall k, (3 <= k <= 19)%Z -> (inject_Z (100 * k) <= pyval t <= inject_Z (100 * (k + 1)))%Q ->
  (gibbs_energy ln C e == bartel ln mass (amt C c) (elemental val k (pyval t)) (elems C c) dhf v (pyval t) + correction ln others)%Q.
Proof.
  intros ln C mass table default_id val W c dhf v t adjs id e T L Pm Hv others [->|[-> ->]] Ns I k Hk K.
  - exact (entry_value ln C mass table default_id val W c dhf v t others id e T L Pm Hv Ns I k Hk K).
  - exact (entry_value ln C mass table default_id val W c dhf v t [] id e T L Pm Hv Ns I k Hk K).
Qed.
Theorem element_energy : forall ln C mass table default_id c dhf v t adjs id e, length (elems C c) = 1 ->
  forall others, adjs = Some others \/ adjs = None /\ others = [] -> (forall w, ~ In (AConst Sisso w) others) ->
  gibbs_init ln C mass table default_id c dhf v t adjs id = Ok e ->
  (gibbs_energy ln C e == sumQ (amt C c) (elems C c) * dhf + correction ln others)%Q.
Proof.
  intros ln C mass table default_id c dhf v t adjs id e L others [->|[-> ->]] Ns I.
  - exact (element_value ln C mass table default_id c dhf v t others id e L Ns I).
  - exact (element_value ln C mass table default_id c dhf v t [] id e L Ns I).
Qed.
