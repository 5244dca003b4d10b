(* Sums of reactions on the pathways come out of the two jobs. *)
From Coq Require Import Lqa Sorted.
From Verif Require Import Prelude NumQ SumQ ListFacts UtilsModel UtilsSpec UtilsProofs ReactionModel ReactionSpec ReactionBaseProofs RxnSetModel RxnSetSpec PathModel PathSpec SolverModel SolverSpec SolverProofs
  SolverTopProofs SolverMoreProofs SolverFinalProofs NetModel YenModel YenSpec FlowModel NetJobModel NetJobSpec SolveJobModel SolveJobSpec SolveJobProofs LinModel LinSpec LinProofs LinBalanceProofs PinvModel PinvProofs CapSpec CapProofs ChainModel ChainSpec ChainProofs ChainFindSpec.
From Verif Require RxnSetRowProofs.
Open Scope nat_scope.

(* --- the list of steps --- *)
Section Steps.
Context {R : Type}.
Variable req : R -> R -> bool.
Hypothesis Hrefl : forall r, req r r = true.

Lemma add_all : forall (l acc : list (R * Q)) s, In s acc \/ In s l -> exists s', In s' (fold_left (add_new req) l acc) /\ (s' = s \/ req (fst s) (fst s') = true).
Proof.
  induction l as [|a l IH]; intros acc s H; [destruct H as [H|[]]; exists s; auto|]. cbn [fold_left]. destruct H as [H|[->|H]].
  - apply IH. left. unfold add_new. destruct (memb req (fst a) (map fst acc)); [exact H|apply in_or_app; left; exact H].
  - unfold add_new at 2. destruct (memb req (fst s) (map fst acc)) eqn:M.
    + unfold memb in M. apply existsb_exists in M as (r & Ir & Er). apply in_map_iff in Ir as (t & <- & It). exists t. split; [|right; exact Er].
      clear - It. revert acc It. induction l as [|b l IH]; intros acc It; [exact It|]. cbn [fold_left]. apply IH. unfold add_new. destruct (memb req (fst b) (map fst acc)); [exact It|apply in_or_app; left; exact It].
    + apply IH. left. apply in_or_app. right. left. reflexivity.
  - apply IH. right. exact H.
Qed.

Lemma pairs_snoc {A} (P : A -> A -> Prop) l x : ForallOrdPairs P l -> (forall a, In a l -> P a x) -> ForallOrdPairs P (l ++ [x]).
Proof.
  induction 1 as [|a l F _ IH]; intros H; cbn; [constructor; constructor|]. constructor; [|apply IH; intros b Ib; apply H; right; exact Ib].
  apply Forall_app. split; [exact F|constructor; [apply H; left; reflexivity|constructor]].
Qed.
Lemma add_pairs : forall (l acc : list (R * Q)), ForallOrdPairs (fun a b => req (fst b) (fst a) = false) acc -> ForallOrdPairs (fun a b => req (fst b) (fst a) = false) (fold_left (add_new req) l acc).
Proof.
  induction l as [|a l IH]; intros acc H; [exact H|]. cbn [fold_left]. apply IH. unfold add_new. destruct (memb req (fst a) (map fst acc)) eqn:M; [exact H|].
  apply pairs_snoc; [exact H|]. intros b Ib. destruct (req (fst a) (fst b)) eqn:E; [|reflexivity]. exfalso. rewrite <- not_true_iff_false in M. apply M. unfold memb. apply existsb_exists. exists (fst b). split; [apply in_map; exact Ib|exact E].
Qed.
Lemma pairs_filter {A} (P : A -> A -> Prop) f l : ForallOrdPairs P l -> ForallOrdPairs P (filter f l).
Proof.
  induction 1 as [|a l F _ IH]; cbn; [constructor|]. destruct (f a); [|exact IH]. constructor; [|exact IH]. rewrite Forall_forall in F |- *. intros b Ib. apply filter_In in Ib as (Ib & _). exact (F b Ib).
Qed.
Lemma pairs_map {A B} (P : B -> B -> Prop) (f : A -> B) l : ForallOrdPairs (fun a b => P (f a) (f b)) l -> ForallOrdPairs P (map f l).
Proof.
  induction 1 as [|a l F _ IH]; cbn; constructor; [|exact IH]. apply Forall_map. exact F.
Qed.
Lemma pairs_impl {A} (P Q : A -> A -> Prop) l : (forall a b, In a l -> In b l -> P a b -> Q a b) -> ForallOrdPairs P l -> ForallOrdPairs Q l.
Proof.
  intros H F. induction F as [|a l F _ IH]; constructor.
  - rewrite Forall_forall in F |- *. intros b Ib. apply H; [left; reflexivity|right; exact Ib|exact (F b Ib)].
  - apply IH. intros b c Ib Ic. apply H; right; assumption.
Qed.
Lemma pairs_at {A} (P : A -> A -> Prop) l : ForallOrdPairs P l -> forall i j a b, i < j -> nth_error l i = Some a -> nth_error l j = Some b -> P a b.
Proof.
  induction 1 as [|x l F _ IH]; intros i j a b Hij Ha Hb; [destruct i; discriminate|]. destruct j as [|j]; [lia|]. cbn in Hb. destruct i as [|i]; cbn in Ha.
  - injection Ha as <-. rewrite Forall_forall in F. apply F. eapply nth_error_In. exact Hb.
  - apply (IH i j); [lia|exact Ha|exact Hb].
Qed.
End Steps.

(* --- picking members in the order of a list --- *)
Lemma picked {A B} (P : A -> B -> Prop) (l : list A) (ys : list B) (idxs : list nat) : NoDup idxs -> Forall2 (fun i y => exists a, nth_error l i = Some a /\ P a y) idxs ys ->
  exists s ys', subseq s l /\ Permutation ys ys' /\ Forall2 P s ys'.
Proof.
  intros N F. set (idxs' := filter (fun i => existsb (Nat.eqb i) idxs) (seq 0 (length l))).
  assert (Bound : forall i, In i idxs -> i < length l).
  { intros i Hi. destruct (Forall2_In_l _ _ _ _ F Hi) as (y & _ & a & E & _). apply nth_error_Some. congruence. }
  assert (Pm : Permutation idxs idxs').
  { apply NoDup_Permutation; [exact N|apply NoDup_filter, seq_NoDup|]. intros i. unfold idxs'. rewrite filter_In, in_seq, existsb_exists. split.
    - intros Hi. split; [specialize (Bound i Hi); lia|exists i; split; [exact Hi|apply Nat.eqb_refl]].
    - intros (_ & j & Hj & E). apply Nat.eqb_eq in E. subst. exact Hj. }
  destruct (Permutation_Forall2 Pm F) as (ys' & P1 & F'). destruct l as [|d l].
  { destruct idxs as [|i idxs]; [|specialize (Bound i (or_introl eq_refl)); cbn in Bound; lia]. inversion F; subst. exists [], []. split; [constructor|]. split; [apply Permutation_refl|constructor]. }
  remember (d :: l) as l0. exists (map (fun i => nth i l0 d) idxs'), ys'. split; [|split; [exact P1|]].
  - assert (E : l0 = map (fun i => nth i l0 d) (seq 0 (length l0))).
    { apply nth_ext with (d := d) (d' := d); [rewrite map_length, seq_length; reflexivity|]. intros i Hi. rewrite (nth_indep (map (fun j => nth j l0 d) (seq 0 (length l0))) d ((fun j => nth j l0 d) 0)) by (rewrite map_length, seq_length; exact Hi).
      rewrite (map_nth (fun j => nth j l0 d)), seq_nth by exact Hi. reflexivity. }
    pose proof (subseq_map_filter (fun i => nth i l0 d) (fun i => existsb (Nat.eqb i) idxs) (seq 0 (length l0))) as G. rewrite <- E in G. exact G.
  - clear - F'. induction F' as [|i y is ys (a & E & H) _ IH]; cbn; constructor; [|exact IH]. rewrite (nth_error_nth _ _ d E). exact H.
Qed.

Lemma through {A B D} (P : A -> B -> Prop) (Q : A -> D -> Prop) (R : B -> D -> Prop) a b d : Forall2 P a b -> Forall2 Q a d -> (forall x y z, P x y -> Q x z -> R y z) -> Forall2 R b d.
Proof. intros F. revert d. induction F as [|x y a b H _ IH]; intros d G K; inversion G; subst; constructor; [eapply K; eassumption|apply IH; assumption]. Qed.

(* --- amounts --- *)
Lemma amount_of x e c : NoDup (x_entries x) -> (forall a b, In a (x_entries x) -> In b (x_entries x) -> uid a = uid b -> a = b) -> In (e, c) (combine (x_entries x) (x_coeffs x)) -> (amount x (uid e) == c)%Q.
Proof.
  unfold amount. generalize (x_coeffs x). induction (x_entries x) as [|a l IH]; intros ks N Hu H; [destruct H|]. destruct ks as [|k ks]; [destruct H|]. cbn [combine] in *. rewrite sumQ_cons. cbn [fst snd].
  inversion N as [|? ? N1 N2]; subst. destruct H as [H|H].
  - injection H as -> ->. rewrite Nat.eqb_refl. rewrite sumQ_all_zero; [ring|]. intros [b k] Ib. cbn [fst snd]. destruct (Nat.eqb_spec (uid b) (uid e)) as [E|_]; [|reflexivity]. exfalso. apply N1.
    pose proof (in_combine_l _ _ _ _ Ib) as Ib'. rewrite <- (Hu b e (or_intror Ib') (or_introl eq_refl) E). exact Ib'.
  - pose proof (in_combine_l _ _ _ _ H) as I. destruct (Nat.eqb_spec (uid a) (uid e)) as [E|_]; [exfalso; apply N1; rewrite (Hu a e (or_introl eq_refl) (or_intror I) E); exact I|].
    rewrite IH; [ring|exact N2|intros p q Ip Iq; apply Hu; right; assumption|exact H].
Qed.
Lemma amount_none x u : (forall e, In e (x_entries x) -> uid e <> u) -> (amount x u == 0)%Q.
Proof. intros H. apply sumQ_all_zero. intros [e c] I. cbn [fst snd]. destruct (Nat.eqb_spec (uid e) u) as [E|_]; [|reflexivity]. exfalso. apply in_combine_l in I. exact (H e I E). Qed.

Lemma has_coeff x e : plain x -> In e (x_entries x) -> exists c, In (e, c) (combine (x_entries x) (x_coeffs x)) /\ ~ (c == 0)%Q.
Proof.
  intros (_ & L & Z) I. apply In_nth_error in I as (i & E). destruct (nth_error (x_coeffs x) i) as [c|] eqn:Ec; [|apply nth_error_None in Ec; assert (i < length (x_entries x)) by (apply nth_error_Some; congruence); lia].
  exists c. split; [|apply Z; eapply nth_error_In; exact Ec]. clear - E Ec. revert i E Ec. generalize (x_coeffs x). induction (x_entries x) as [|a l IH]; intros [|k ks] [|i] E Ec; try discriminate; cbn in *.
  - injection E as ->. injection Ec as ->. left. reflexivity.
  - right. exact (IH ks i E Ec).
Qed.

Lemma scaled_multiples x y k : plain x -> plain y -> (forall a b, In a (x_entries x ++ x_entries y) -> In b (x_entries x ++ x_entries y) -> uid a = uid b -> a = b) ->
  (0 < k)%Q -> (forall u, (amount x u == k * amount y u)%Q) -> multiples y x.
Proof.
  intros Px Py Hu Hk H.
  assert (Ux : forall a b, In a (x_entries x) -> In b (x_entries x) -> uid a = uid b -> a = b) by (intros a b Ia Ib; apply Hu; apply in_or_app; left; assumption).
  assert (Uy : forall a b, In a (x_entries y) -> In b (x_entries y) -> uid a = uid b -> a = b) by (intros a b Ia Ib; apply Hu; apply in_or_app; right; assumption).
  assert (Sub : forall a b, plain a -> plain b -> (forall p q, In p (x_entries a) -> In q (x_entries a) -> uid p = uid q -> p = q) -> (forall p q, In p (x_entries a) -> In q (x_entries b) -> uid p = uid q -> p = q) ->
     (forall u, (amount b u == 0)%Q -> (amount a u == 0)%Q) -> incl (x_entries a) (x_entries b)).
  { intros a b Pa Pb Ua Uab Z e I. destruct (has_coeff a e Pa I) as (c & Ic & Nz). destruct (in_dec Nat.eq_dec (uid e) (map uid (x_entries b))) as [D|D].
    - apply in_map_iff in D as (e' & E & I'). rewrite (Uab e e' I I' (eq_sym E)). exact I'.
    - exfalso. apply Nz. rewrite <- (amount_of a e c (proj1 Pa) Ua Ic). apply Z. apply amount_none. intros e' I' E. apply D. rewrite <- E. apply in_map. exact I'. }
  assert (Sxy : incl (x_entries x) (x_entries y)).
  { apply Sub; try assumption; [intros p q Ip Iq; apply Hu; apply in_or_app; [left|right]; assumption|]. intros u Z. rewrite H, Z. ring. }
  assert (Syx : incl (x_entries y) (x_entries x)).
  { apply Sub; try assumption; [intros p q Ip Iq; apply Hu; apply in_or_app; [right|left]; assumption|]. intros u Z. rewrite H in Z. apply Qmult_integral in Z as [Z|Z]; [rewrite Z in Hk; discriminate Hk|exact Z]. }
  assert (Ex : exists l, map (fun t : sentry * Q * Q => (fst (fst t), snd (fst t))) l = combine (x_entries y) (x_coeffs y) /\ forall e a b, In (e, a, b) l -> In (e, b) (combine (x_entries x) (x_coeffs x))).
  { assert (I : forall ec, In ec (combine (x_entries y) (x_coeffs y)) -> In (fst ec) (x_entries x)) by (intros [e c] J; apply Syx; exact (in_combine_l _ _ _ _ J)).
    induction (combine (x_entries y) (x_coeffs y)) as [|[e c] l IH]; [exists []; split; [reflexivity|intros e a b []]|]. destruct IH as (l' & E & J); [intros ec Jec; apply I; right; exact Jec|].
    destruct (has_coeff x e Px (I (e, c) (or_introl eq_refl))) as (c' & Ic & _). exists ((e, c, c') :: l'). split; [cbn; rewrite E; reflexivity|]. intros e0 a b [K|K]; [injection K as <- <- <-; exact Ic|exact (J e0 a b K)]. }
  destruct Ex as (l & E & J). destruct Px as (Nx & Lx & Zx), Py as (Ny & Ly & Zy).
  assert (Ef : map (fun t : sentry * Q * Q => fst (fst t)) l = x_entries y) by (rewrite <- (combine_fst (x_entries y) (x_coeffs y)) by (symmetry; exact Ly); rewrite <- E, map_map; reflexivity).
  exists k, l. split; [exact Hk|]. split; [split|].
  - rewrite E. apply Permutation_refl.
  - apply NoDup_Permutation_bis.
    + apply (NoDup_map_inv fst). rewrite map_map. cbn [fst]. rewrite Ef. exact Ny.
    + rewrite map_length, combine_length, Lx, Nat.min_id. rewrite <- (map_length (fun t : sentry * Q * Q => fst (fst t)) l), Ef. apply NoDup_incl_length; assumption.
    + intros [e b] I. apply in_map_iff in I as ([[e0 a0] b0] & Eb & I). cbn in Eb. injection Eb as -> ->. exact (J e a0 b I).
  - intros e a b I. pose proof (J e a b I) as Jx. assert (Jy : In (e, a) (combine (x_entries y) (x_coeffs y))) by (rewrite <- E; apply in_map_iff; exists (e, a, b); split; [reflexivity|exact I]).
    rewrite <- (amount_of x e b Nx Ux Jx), <- (amount_of y e a Ny Uy Jy). apply H.
Qed.

(* --- reactions written again --- *)
Lemma restated_turnover C ents r r' : (forall i e, nth_error ents i = Some e -> e_id e = i) -> (forall i, length ents <= i -> (turnover r i == 0)%Q) ->
  (forall i, (turnover r i == 0)%Q \/ (1 # 100000000 < Qabs (turnover r i))%Q) -> restated C ents r r' -> forall i, (turnover r' i == turnover r i)%Q.
Proof.
  intros Hid Out Big (_ & F) i. transitivity (sumQ (fun ek => if Nat.eqb (e_id (fst ek)) i then snd ek else 0)%Q (map (fun e => (e, turnover r (e_id e))) ents)).
  - unfold turnover at 1. transitivity (sumQ (fun ek => if Nat.eqb (e_id (fst ek)) i then snd ek else 0)%Q (filter (fun ek => Qlt_bool (1 # 100000000) (Qabs (snd ek))) (map (fun e => (e, turnover r (e_id e))) ents))).
    + induction F as [|a b la lb (E1 & E2) _ IH]; [reflexivity|]. rewrite !sumQ_cons, IH, E1. destruct (Nat.eqb (e_id (fst b)) i); [rewrite E2|]; reflexivity.
    + rewrite sumQ_filter. apply sumQ_ext. intros [e k] I. apply in_map_iff in I as (e' & E & _). injection E as -> <-. cbn [fst snd]. destruct (Qlt_bool (1 # 100000000) (Qabs (turnover r (e_id e)))) eqn:B; cbn [ind].
      * destruct (Nat.eqb (e_id e) i); ring.
      * destruct (Big (e_id e)) as [Z|Z]; [|exfalso; unfold Qlt_bool in B; apply negb_false_iff, Qle_bool_iff in B; lra]. destruct (Nat.eqb (e_id e) i); [rewrite Z|]; ring.
  - rewrite sumQ_map. cbn [fst snd]. clear F Big. destruct (Nat.lt_ge_cases i (length ents)) as [L|L].
    + assert (G : forall es n, (forall j e, nth_error es j = Some e -> e_id e = n + j) -> n <= i < n + length es -> (sumQ (fun e => if Nat.eqb (e_id e) i then turnover r (e_id e) else 0)%Q es == turnover r i)%Q).
      { induction es as [|e es IH]; intros n Hn Hi; [cbn in Hi; lia|]. rewrite sumQ_cons. rewrite (Hn 0 e eq_refl), Nat.add_0_r. destruct (Nat.eqb_spec n i) as [->|Ne].
        - rewrite sumQ_all_zero; [ring|]. intros e' I. apply In_nth_error in I as (j & E). rewrite (Hn (S j) e' E). destruct (Nat.eqb_spec (i + S j) i); [lia|reflexivity].
        - rewrite (IH (S n)); [ring| |cbn in Hi; lia]. intros j e' E. rewrite (Hn (S j) e' E). lia. }
      apply (G ents 0); [intros j e E; exact (Hid j e E)|lia].
    + rewrite (Out i L). apply sumQ_all_zero. intros e I. apply In_nth_error in I as (j & E). rewrite (Hid j e E). destruct (Nat.eqb_spec j i) as [->|_]; [|reflexivity]. assert (i < length ents) by (apply nth_error_Some; congruence). lia.
Qed.

(* --- sums in another order --- *)
Lemma together_perm ms xs ms' xs' u : Permutation (combine ms xs) (combine ms' xs') -> (together ms xs u == together ms' xs' u)%Q.
Proof. intros P. unfold together. apply sumQ_perm. exact P. Qed.
Lemma unrelated_perm xs xs' : Permutation xs xs' -> unrelated xs -> unrelated xs'.
Proof.
  intros P U ks L Z. assert (E : map snd (combine ks xs') = xs') by (apply combine_snd; exact L). rewrite <- E in P. destruct (Permutation_map_inv _ _ P) as (kx & Ex & Pk).
  assert (Ek : kx = combine (map fst kx) xs) by (rewrite Ex; clear; induction kx as [|[a b] l IH]; cbn; [reflexivity|rewrite <- IH; reflexivity]).
  assert (F : Forall (fun k => (k == 0)%Q) (map fst kx)).
  { apply U; [rewrite Ex, !map_length; reflexivity|]. intros u. rewrite <- (Z u). apply together_perm. rewrite <- Ek. apply Permutation_sym. exact Pk. }
  rewrite Forall_forall in F |- *. intros k Ik. apply F. rewrite <- (combine_fst ks xs') in Ik by exact L. apply in_map_iff in Ik as (p & <- & Ip). apply in_map. exact (Permutation_in _ Pk Ip).
Qed.
Lemma unrelated_apart xs : unrelated xs -> forall i j x y, i < j -> nth_error xs i = Some x -> nth_error xs j = Some y -> ~ like x y.
Proof.
  intros U i j x y Hij Hi Hj Lk. destruct (nth_error_split _ _ Hi) as (l1 & l2 & -> & L1). rewrite nth_error_app2 in Hj by lia. replace (j - length l1) with (S (j - length l1 - 1)) in Hj by lia. cbn in Hj.
  destruct (nth_error_split _ _ Hj) as (l3 & l4 & -> & L3).
  assert (P : Permutation (l1 ++ x :: l3 ++ y :: l4) (x :: y :: l1 ++ l3 ++ l4)).
  { symmetry. apply Permutation_cons_app. rewrite !app_assoc. apply Permutation_cons_app. rewrite <- app_assoc. apply Permutation_refl. }
  pose proof (unrelated_perm _ _ P U (1%Q :: (-1)%Q :: repeat 0%Q (length (l1 ++ l3 ++ l4)))) as F.
  assert (G : Forall (fun k => (k == 0)%Q) (1%Q :: (-1)%Q :: repeat 0%Q (length (l1 ++ l3 ++ l4)))).
  { apply F; [cbn; rewrite repeat_length; reflexivity|]. intros u. unfold together. cbn [combine]. rewrite !sumQ_cons. cbn [fst snd]. rewrite (Lk u), sumQ_all_zero; [ring|].
    intros [k z] I. apply in_combine_l, repeat_spec in I. cbn [fst]. rewrite I. ring. }
  inversion G as [|? ? Bad _]. discriminate Bad.
Qed.

Lemma path_item {A B} (l : list A) (cs : list B) a : length l = length cs -> In a l -> exists c, In (a, c) (combine l cs).
Proof.
  revert cs. induction l as [|b l IH]; intros [|c cs] L I; try discriminate; [destruct I|]. destruct I as [->|I]; [exists c; left; reflexivity|]. destruct (IH cs ltac:(cbn in L; lia) I) as (c' & J). exists c'. right. exact J.
Qed.

(* --- the theorem --- *)
Section Chain.
Variable C : chem.
Hypothesis W : wf_chem C.
Variable comp_of : nat -> nat.
Variable energy_of : nat -> Q.
Variable listed members : list nat -> list nat.
Hypothesis Hlisted : forall us, NoDup us -> Permutation (listed us) us.
Hypothesis Hmembers : forall us, Permutation (members us) (seq 0 (length us)).
Variable arrange : list sentry -> list sentry.
Hypothesis Harr : arranges arrange.
Variable argsort : list Q -> list nat.
Hypothesis Hsort : forall l, Permutation (argsort l) (seq 0 (length l)).
Variable shuffle : list nat -> list nat.
Hypothesis Hshuf : forall l, Permutation (shuffle l) l.
Variable cpus : nat.
Hypothesis Hcpus : 2 <= cpus.
Variable wait : nat -> list (nat * list (option (list nat)) * result (list nat)) ->
  list (nat * list (option (list nat)) * result (list nat)) * list (nat * list (option (list nat)) * result (list nat)).
Hypothesis Hwait : valid_schedule wait.
Variable xcost : srxn -> Q.
Hypothesis Hcost : forall r, (0 <= xcost r)%Q.
Variable sp : (payload -> Q) -> list (nat * nat * payload) -> nat -> nat -> option (list nat).
Hypothesis Hsp : forall weight, shortest weight (sp weight).
Variable xeq : srxn -> srxn -> bool.
Hypothesis Hxeq : forall r, xeq r r = true.
Variable req : rxn -> rxn -> bool.
Variable waits1 waits2 : nat -> nat -> list nat -> list nat * list nat.
Variable uniq : list (path rxn) -> list (path rxn).
Variable clean : list rxn -> list rxn.
Variable cost : rxn -> Q.
Variable inter : list entry -> list rxn -> rxn -> result (list rxn).
Variable chunk : nat.
Variable rhash : rxn -> nat.
Hypothesis Hw1 : forall k, valid_schedule (waits1 k).
Hypothesis Hw2 : forall k, valid_schedule (waits2 k).
Hypothesis Hreq : forall r, req r r = true.
Hypothesis Huniq : set_members req rhash uniq.
Hypothesis Hnone : uniq [] = [].
Hypothesis Hclean : keeps_all req clean.
Hypothesis Hchunk : 1 <= chunk.
Notation epa := (fun u => energy_of u / natoms C (comp_of u))%Q.
Notation obj := (rxn_of C comp_of energy_of listed).

(* The reactions of the network with their numbered entries. *)
Section Numbered.
Variable us : list nat.
Hypothesis Nus : NoDup us.
Variable rs : list srxn.
Hypothesis Hplain : forall x, In x rs -> plain x.
Hypothesis Hin : forall x e, In x rs -> In e (x_entries x) -> In (uid e) us.
Hypothesis Hinj : forall x y a b, In x rs -> In y rs -> In a (x_entries x) -> In b (x_entries y) -> uid a = uid b -> a = b.
Hypothesis Hbig : forall x c, In x rs -> In c (x_coeffs x) -> (1 # 100000000 < Qabs c)%Q.
Hypothesis Hsame : forall x y, In x rs -> In y rs -> multiples x y -> req (obj us x) (obj us y) = true.

Lemma obj_amounts x : In x rs -> amounts_of (listed us) x (turnover (obj us x)).
Proof. intros I. apply (rxn_turnover C comp_of energy_of listed Hlisted us Nus). intros e Ie. exact (Hin x e I Ie). Qed.
Lemma in_listed u : In u (listed us) <-> In u us.
Proof. split; apply Permutation_in; [|apply Permutation_sym]; apply Hlisted; exact Nus. Qed.
Lemma amount_out x u : In x rs -> ~ In u us -> (amount x u == 0)%Q.
Proof. intros I N. apply amount_none. intros e Ie <-. exact (N (Hin x e I Ie)). Qed.
Lemma like_turnover x y : In x rs -> In y rs -> like x y -> forall i, (turnover (obj us x) i == turnover (obj us y) i)%Q.
Proof. intros Ix Iy L i. rewrite (obj_amounts x Ix i), (obj_amounts y Iy i). destruct (nth_error (listed us) i); [apply L|reflexivity]. Qed.
Lemma proportional_same x y : In x rs -> In y rs -> proportional (obj us x) (obj us y) -> req (obj us y) (obj us x) = true.
Proof.
  intros Ix Iy (k & Hk & H).
  assert (M : multiples y x).
  { apply (scaled_multiples x y k (Hplain x Ix) (Hplain y Iy)); [|exact Hk|].
    - intros a b Ia Ib. apply in_app_iff in Ia as [Ia|Ia], Ib as [Ib|Ib]; [exact (Hinj x x a b Ix Ix Ia Ib)|exact (Hinj x y a b Ix Iy Ia Ib)|exact (Hinj y x a b Iy Ix Ia Ib)|exact (Hinj y y a b Iy Iy Ia Ib)].
    - intros u. destruct (in_dec Nat.eq_dec u us) as [D|D]; [|rewrite (amount_out x u Ix D), (amount_out y u Iy D); ring]. apply in_listed, In_nth_error in D as (n & En).
      pose proof (H n) as Hn. rewrite (obj_amounts x Ix n), (obj_amounts y Iy n), En in Hn. exact Hn. }
  exact (Hsame y x Iy Ix M).
Qed.
Lemma obj_coeff x i : In x rs -> (turnover (obj us x) i == 0)%Q \/ (1 # 100000000 < Qabs (turnover (obj us x) i))%Q.
Proof.
  intros I. pose proof (obj_amounts x I i) as E. destruct (nth_error (listed us) i) as [u|]; [|left; exact E]. destruct (in_dec Nat.eq_dec u (map uid (x_entries x))) as [D|D].
  - right. rewrite E. apply in_map_iff in D as (e & <- & Ie). destruct (has_coeff x e (Hplain x I) Ie) as (c & Ic & _). rewrite (amount_of x e c (proj1 (Hplain x I)) (fun a b => Hinj x x a b I I) Ic). apply (Hbig x c I). exact (in_combine_r _ _ _ _ Ic).
  - left. rewrite E. apply amount_none. intros e Ie Eu. apply D. rewrite <- Eu. apply in_map. exact Ie.
Qed.
Lemma obj_out x i : In x rs -> length (numbered comp_of energy_of listed us) <= i -> (turnover (obj us x) i == 0)%Q.
Proof. intros I L. unfold numbered in L. rewrite map_length in L. pose proof (obj_amounts x I i) as E. rewrite (proj2 (nth_error_None _ _) L) in E. exact E. Qed.
Lemma obj_between x : In x rs -> x_entries x <> [] -> between (numbered comp_of energy_of listed us) (obj us x).
Proof.
  intros I Ne. pose proof (Hplain x I) as P. split.
  - exists (computed_init C (map (fun e => entry_of comp_of energy_of listed us (uid e)) (x_entries x)) (x_coeffs x) None). split; [unfold rxn_of; destruct (x_mu x) as [mu|]; [right; exists mu; reflexivity|left; reflexivity]|].
    pose proof (rxn_nodup C comp_of energy_of listed Hlisted us Nus x P (fun a b => Hinj x x a b I I) (fun e Ie => Hin x e I Ie)) as N. rewrite rxn_parts in N.
    rewrite <- (map_map fst e_id), combine_fst in N by (rewrite map_length; symmetry; apply P).
    split; [cbn; rewrite map_length; symmetry; apply P|]. split; [exact N|]. cbn. intros e Ie. apply in_map_iff in Ie as (a & <- & Ia). unfold numbered. apply in_map, in_listed, (Hin x a I Ia).
  - destruct (x_entries x) as [|e l] eqn:Ex; [contradiction|]. assert (Ie : In e (x_entries x)) by (rewrite Ex; left; reflexivity). destruct (has_coeff x e P Ie) as (c & Ic & _).
    assert (Iu : In (uid e) (listed us)) by (apply in_listed; exact (Hin x e I Ie)). apply In_nth_error in Iu as (i & Ei). exists i. rewrite (obj_amounts x I i), Ei.
    rewrite (amount_of x e c (proj1 P) (fun a b => Hinj x x a b I I) Ic). apply (Hbig x c I). exact (in_combine_r _ _ _ _ Ic).
Qed.
Lemma obj_restated x r : In x rs -> restated C (numbered comp_of energy_of listed us) (obj us x) r -> amounts_of (listed us) x (turnover r).
Proof.
  intros I S i. rewrite (restated_turnover C (numbered comp_of energy_of listed us) (obj us x) r (numbered_ids comp_of energy_of listed Hlisted us Nus) (fun j => obj_out x j I) (fun j => obj_coeff x j I) S i). exact (obj_amounts x I i).
Qed.

(* The candidates. *)
Variable pw : list (path srxn).
Hypothesis Hpw : forall q x, In q pw -> In x (p_rxns q) -> In x rs.
Hypothesis Hlen : forall q, In q pw -> length (p_costs q) = length (p_rxns q).
Hypothesis Htell : forall x y, In x rs -> In y rs -> req (obj us x) (obj us y) = true -> like x y.
Variable zs : list srxn.
Hypothesis Hzs : forall x, In x zs -> In x rs.
Notation init0 := (solver_init req (map (path_of C comp_of energy_of listed us) pw)).
Notation init := (with_intermediates req cost init0 (map (obj us) zs)).

Lemma init_from s : In s init -> exists x, In x rs /\ fst s = obj us x.
Proof.
  intros H. apply in_add_new in H as [H|H].
  2: { rewrite map_map in H. apply in_map_iff in H as (x & <- & H). exists x. split; [exact (Hzs x H)|reflexivity]. }
  apply in_add_new in H as [[]|H]. apply in_flat_map in H as (p & Hp & H). apply in_map_iff in Hp as (q & <- & Hq). destruct s as [r c]. apply in_combine_l in H. cbn [p_rxns path_of] in H.
  apply in_map_iff in H as (x & <- & Hx). exists x. split; [exact (Hpw q x Hq Hx)|reflexivity].
Qed.
Lemma init_split : init = fold_left (add_new req) (flat_map (fun p => combine (p_rxns p) (p_costs p)) (map (path_of C comp_of energy_of listed us) pw) ++ map (fun r => (r, cost r)) (map (obj us) zs)) [].
Proof. unfold with_intermediates, solver_init. rewrite fold_left_app. reflexivity. Qed.
Lemma init_has x : (exists q, In q pw /\ In x (p_rxns q)) \/ In x zs -> exists s y, In s init /\ In y rs /\ fst s = obj us y /\ like x y.
Proof.
  intros Hx. assert (Ix : In x rs) by (destruct Hx as [(q & Hq & Hx)|Hx]; [exact (Hpw q x Hq Hx)|exact (Hzs x Hx)]).
  assert (Ii : exists c, In (obj us x, c) (flat_map (fun p => combine (p_rxns p) (p_costs p)) (map (path_of C comp_of energy_of listed us) pw) ++ map (fun r => (r, cost r)) (map (obj us) zs))).
  { destruct Hx as [(q & Hq & Hx)|Hx]; [|exists (cost (obj us x)); apply in_or_app; right; rewrite map_map; apply (in_map (fun z => (obj us z, cost (obj us z)))); exact Hx].
  assert (Ic : exists c, In (obj us x, c) (combine (map (obj us) (p_rxns q)) (p_costs q))).
  { pose proof (Hlen q Hq) as L. revert Hx L. generalize (p_costs q). induction (p_rxns q) as [|a l IH]; intros [|c cs] Hx L; try discriminate; [destruct Hx|]. destruct Hx as [->|Hx]; [exists c; left; reflexivity|].
    destruct (IH cs Hx ltac:(cbn in L; lia)) as (c' & Ic). exists c'. right. exact Ic. }
  destruct Ic as (c & Ic). exists c. apply in_or_app. left. apply in_flat_map. exists (path_of C comp_of energy_of listed us q). split; [apply in_map; exact Hq|exact Ic]. }
  destruct Ii as (c & Ii). destruct (add_all req Hreq _ [] (obj us x, c) (or_intror Ii)) as (s & Is & Es). rewrite <- init_split in Is.
  destruct (init_from s Is) as (y & Iy & Ey). exists s, y. split; [exact Is|]. split; [exact Iy|]. split; [exact Ey|]. apply Htell; [exact Ix|exact Iy|].
  destruct Es as [->|Es]; [cbn [fst] in Ey; rewrite <- Ey; apply Hreq|cbn [fst] in Es; rewrite <- Ey; exact Es].
Qed.
Lemma init_apart : ForallOrdPairs (fun a b => ~ proportional a b) (map fst init).
Proof.
  apply pairs_map. apply (pairs_impl (fun a b : rxn * Q => req (fst b) (fst a) = false)); [|rewrite init_split; apply (add_pairs req); constructor]. intros a b Ia Ib H P. destruct (init_from a Ia) as (x & Ix & Ex), (init_from b Ib) as (y & Iy & Ey). rewrite Ex, Ey in P, H.
  rewrite (proportional_same x y Ix Iy P) in H. discriminate.
Qed.

Variable net0 : rxn.
Hypothesis Hnet : forall x, In x rs -> req (obj us x) net0 = true -> amounts_of (listed us) x (turnover net0).
Notation cands := (pool req (clean (map fst init)) net0 init).

Lemma cands_has x : (exists q, In q pw /\ In x (p_rxns q)) \/ In x zs -> ~ amounts_of (listed us) x (turnover net0) -> exists s y, In s cands /\ In y rs /\ fst s = obj us y /\ like x y.
Proof.
  intros Hx Hn. destruct (init_has x Hx) as (s & y & Is & Iy & Ey & L). exists s, y. split; [|split; [exact Iy|split; [exact Ey|exact L]]]. unfold pool. apply filter_In. split; [exact Is|].
  apply andb_true_iff. split.
  - destruct (Hclean (map fst init) init_apart (fst s) (in_map fst _ _ Is)) as (r' & Ir & Er). apply existsb_exists. exists r'. split; assumption.
  - apply negb_true_iff. destruct (req (fst s) net0) eqn:E; [|reflexivity]. exfalso. apply Hn. rewrite Ey in E. intros i. rewrite (Hnet y Iy E i). destruct (nth_error (listed us) i); [symmetry; apply L|reflexivity].
Qed.
Lemma cands_from s : In s cands -> exists x, In x rs /\ fst s = obj us x.
Proof. intros H. unfold pool in H. apply filter_In in H as (H & _). exact (init_from s H). Qed.
Lemma cands_indices xs : (forall i j x y, i < j -> nth_error xs i = Some x -> nth_error xs j = Some y -> ~ like x y) ->
  (forall x, In x xs -> exists s y, In s cands /\ In y rs /\ fst s = obj us y /\ like x y) ->
  exists idxs, NoDup idxs /\ Forall2 (fun i x => exists s, nth_error cands i = Some s /\ exists y, In y rs /\ fst s = obj us y /\ like x y) idxs xs.
Proof.
  induction xs as [|x xs IH]; intros Ap H; [exists []; split; constructor|]. destruct IH as (idxs & N & F).
  - intros i j a b Hij Hi Hj. apply (Ap (S i) (S j)); [lia|exact Hi|exact Hj].
  - intros a Ia. apply H. right. exact Ia.
  - destruct (H x (or_introl eq_refl)) as (s & y & Is & Iy & Ey & L). apply In_nth_error in Is as (i & Ei). exists (i :: idxs). split; [|constructor; [exists s; split; [exact Ei|exists y; auto]|exact F]].
    constructor; [|exact N]. intros Ii. destruct (Forall2_In_l _ _ _ _ F Ii) as (x' & Ix' & s' & Es' & y' & Iy' & Ey' & L'). apply In_nth_error in Ix' as (j & Ej).
    apply (Ap 0 (S j) x x'); [lia|reflexivity|exact Ej|]. assert (s' = s) as -> by congruence. intros u. rewrite (L u), (L' u). rewrite Ey in Ey'.
    assert (Lk : like y y') by (apply Htell; [exact Iy|exact Iy'|rewrite Ey'; apply Hreq]). apply Lk.
Qed.
End Numbered.

Lemma through_fun rs p xs xs' : goes_through xcost rs p xs -> goes_through xcost rs p xs' -> xs = xs'.
Proof.
  intros G. revert xs'. induction G as [|pc x p xs ((n & E1 & E2) & _) _ IH]; intros xs' G'; inversion G' as [|? x' ? xs0 ((n' & E1' & E2') & _) G0]; subst; [reflexivity|].
  assert (n' = n) as -> by congruence. f_equal; [congruence|apply IH; exact G0].
Qed.
Theorem chain_finds nmk smk max find fi sets ls fs ts k v :
  Forall2 (fun s l => get_rxns s = Ok l) sets ls -> let given := concat ls in
  (forall x y, In x (all_entries given) -> In y (all_entries given) -> uid x = uid y -> x = y) ->
  (forall r, In r given -> plain r) -> sharp given ->
  (forall r e, In r given -> In e (x_entries r) -> comp e = comp_of (uid e) /\ form e = red C (comp e)) ->
  (forall r, In r given -> x_entries r <> []) -> (forall r c, In r given -> In c (x_coeffs r) -> (1 # 100000000 < Qabs c)%Q) ->
  nm_precursors nmk = Some fs -> fs <> [] -> nm_targets nmk = Some ts -> ts <> [] -> nm_k nmk = Some k -> 0 < k ->
  sm_precursors smk = fs -> sm_targets smk = ts -> NoDup (fs ++ ts) -> (forall f, In f (fs ++ ts) -> red C f = f) ->
  only_combination C (fs ++ ts) v -> LinSpec.sides (length fs) v ->
  (forall f, In f (fs ++ ts) -> exists r e, In r given /\ In e (x_entries r) /\ form e = f) ->
  exists us rs m ps tes per net0 gs es ks t rxns, NoDup us /\ (forall u, In u us <-> exists e, In e (all_entries given) /\ uid e = u)
  /\ families m given rs /\ ((forall el, nm_open nmk = Some el -> m = Some [(el, nm_chempot nmk)]) /\ (nm_open nmk = None -> (forall r, In r given -> x_mu r = None) -> m = None))
  /\ Forall2 (lowest epa given) fs ps /\ Forall2 (lowest epa given) ts tes /\ Forall2 (fun t pathways => pathways_to xcost rs ps t k pathways) tes per
  /\ Forall2 (lowest epa given) (fs ++ ts) gs /\ Forall2 (stands_for (listed us)) gs es /\ (0 < t)%Q /\ multiple t v ks /\ parts net0 = combine es ks /\ environment (sm_open smk) (sm_chempot smk) net0
  /\ (forall r, In r rxns -> exists x, on_pathways xcost rs (concat per) x /\ r = obj us x)
  /\ (forall x, on_pathways xcost rs (concat per) x -> exists x' r, on_pathways xcost rs (concat per) x' /\ xeq x' x = true /\ In r rxns /\ req (obj us x') r = true)
  /\ forall ys, (find = true -> inter (numbered comp_of energy_of listed us) rxns net0 = Ok (map (obj us) ys)) -> (find = false -> ys = []) ->
     (forall y, In y ys -> plain y /\ x_entries y <> [] /\ (forall e, In e (x_entries y) -> In e (all_entries given)) /\ forall c, In c (x_coeffs y) -> (1 # 100000000 < Qabs c)%Q) ->
     (forall x y, In x rs -> In y rs -> xeq x y = true -> like x y) ->
     (forall x y, In x (rs ++ ys) -> In y (rs ++ ys) -> req (obj us x) (obj us y) = true -> like x y) ->
     (forall x y, In x (rs ++ ys) -> In y ys -> multiples x y \/ multiples y x -> req (obj us x) (obj us y) = true /\ req (obj us y) (obj us x) = true) ->
     (forall x, In x (rs ++ ys) -> req (obj us x) net0 = true -> amounts_of (listed us) x (turnover net0)) ->
     (forall x r, In x (rs ++ ys) -> environment (sm_open smk) (sm_chempot smk) r -> amounts_of (listed us) x (turnover r) -> req (obj us x) r = true) ->
     let allowed := fun x => (on_pathways xcost rs (concat per) x \/ In x ys) /\ ~ amounts_of (listed us) x (turnover net0) in
     forall ds, length ds = max -> (forall i j x y, i < j -> nth_error ds i = Some x -> nth_error ds j = Some y -> ~ like x y) -> (forall x, In x ds -> allowed x) ->
     forall xs ms, 1 <= length xs <= max -> (forall x, In x xs -> allowed x) -> unrelated xs ->
     (fi = true -> ~ circle (takes C comp_of) (gives C comp_of) (map comp (firstn (length fs) gs)) xs) ->
     length ms = length xs -> Forall (fun q => (1 # 1000000 <= q)%Q) ms ->
     (forall i u, nth_error (listed us) i = Some u -> (together ms xs u == turnover net0 i)%Q) ->
     exists paths q ms' ms0 xs0, both_jobs C comp_of energy_of listed members arrange argsort shuffle cpus wait xcost sp xeq (exact_solve C) (exact_rank C) req path_pinv waits1 waits2 uniq clean cost inter chunk nmk smk max find fi sets = Ok (net0, paths)
     /\ In q paths /\ p_coeffs q = Some ms' /\ Forall2 Qeq ms' ms0 /\ length ms0 = length xs0 /\ Permutation (combine ms xs) (combine ms0 xs0)
     /\ Forall2 (fun x r => exists r', amounts_of (listed us) x (turnover r') /\ environment (sm_open smk) (sm_chempot smk) r' /\ req r' r = true) xs0 (p_rxns q).
Proof.
  intros HL given Hu Hp Hs Hf Hne Hbig Ep Hfs Et Hts Ek Hk Sp St Nf Rf Ov Sv Hin.
  destruct (passed_on C comp_of energy_of listed members arrange Harr argsort Hsort shuffle Hshuf cpus Hcpus wait Hwait xcost Hcost sp Hsp xeq Hxeq (exact_solve C) (exact_rank C) req path_pinv waits1 waits2 uniq clean cost inter chunk
    nmk smk max find fi sets ls fs ts k HL Hu Hp Hs Hf Ep Hfs Et Hts Ek Hk Hin) as (us & rs & m & ps & tes & per & qs & Nus & Ius & Fam & Hm & Hps & Hte & Hper & Hqs & Eq).
  fold given in Ius, Fam, Hps, Hte. set (ents := numbered comp_of energy_of listed us) in *.
  destruct (job_finds C W ents (members us) (numbered_ids comp_of energy_of listed Hlisted us Nus) (numbered_members comp_of energy_of listed members Hlisted Hmembers us Nus) req waits1 waits2 uniq clean cost inter chunk cpus rhash Hw1 Hw2 Hreq Huniq Hnone
    smk max find fi (map (path_of C comp_of energy_of listed us) qs) v) as (net0 & res & pes & ks & t & G1 & G2 & Tp & M & Pn & En & Find); rewrite ?Sp, ?St; try assumption.
  { destruct fs; [contradiction|]. destruct ts; [contradiction|]. cbn. lia. }
  { intros f If. destruct (Hin f If) as (r & e & Ir & Ie & Fe). destruct (Hf r e Ir Ie) as (E1 & E2). exists (entry_of comp_of energy_of listed us (uid e)). split; [|cbn; congruence].
    unfold ents, numbered. apply in_map. apply (Permutation_in _ (Permutation_sym (Hlisted us Nus))), Ius. exists e. split; [apply in_flat_map; exists r; auto|reflexivity]. }
  rewrite Sp in G1. rewrite St in G2.
  assert (Gs : forall l l', (forall f, In f l -> red C f = f) -> Forall2 (lowest_entry C ents) l l' -> exists gs, Forall2 (lowest epa given) l gs /\ Forall2 (stands_for (listed us)) gs l').
  { intros l l' Rl F. induction F as [|f e l l' L _ IH]; [exists []; split; constructor|]. destruct IH as (gs & F1 & F2); [intros f' I; apply Rl; right; exact I|].
    destruct (numbered_lowest C comp_of energy_of listed Hlisted us given f e Nus Ius Hf (Rl f (or_introl eq_refl)) L) as (x & Lx & Sx). exists (x :: gs). split; constructor; assumption. }
  destruct (Gs (fs ++ ts) (res ++ pes) Rf (Forall2_app G1 G2)) as (gs & F1 & F2).
  set (init0 := solver_init req (map (path_of C comp_of energy_of listed us) qs)) in *.
  exists us, rs, m, ps, tes, per, net0, gs, (res ++ pes), ks, t, (map fst init0). repeat (split; [assumption|]).
  destruct Fam as (Fa & Fb & Fc).
  assert (Hplain : forall x, In x rs -> plain x) by (intros x I; destruct (Fb x I) as (x0 & I0 & ->); exact (Hp x0 I0)).
  assert (Hall : forall x e, In x rs -> In e (x_entries x) -> In e (all_entries given)) by (intros x e I Ie; destruct (Fb x I) as (x0 & I0 & ->); apply in_flat_map; exists x0; auto).
  assert (Hus : forall x e, In x rs -> In e (x_entries x) -> In (uid e) us) by (intros x e I Ie; apply Ius; exists e; split; [exact (Hall x e I Ie)|reflexivity]).
  assert (Hinj : forall x y a b, In x rs -> In y rs -> In a (x_entries x) -> In b (x_entries y) -> uid a = uid b -> a = b) by (intros x y a b Ix Iy Ia Ib; apply Hu; [exact (Hall x a Ix Ia)|exact (Hall y b Iy Ib)]).
  assert (Hbg : forall x c, In x rs -> In c (x_coeffs x) -> (1 # 100000000 < Qabs c)%Q) by (intros x c I; destruct (Fb x I) as (x0 & I0 & ->); exact (Hbig x0 c I0)).
  assert (On : forall x, on_pathways xcost rs (concat per) x -> In x rs).
  { intros x (p & l & _ & G & I). clear - G I. induction G as [|pc a p l ((n & _ & E) & _) _ IH]; [destruct I|]. destruct I as [<-|I]; [exact (nth_error_In _ _ E)|exact (IH I)]. }
  assert (Hpw : forall q x, In q qs -> In x (p_rxns q) -> In x rs).
  { intros q x Iq Ix. destruct (Forall2_In_r _ _ _ _ Hqs Iq) as (p & _ & l & _ & F & _). destruct (Forall2_In_r _ _ _ _ F Ix) as (y & _ & _ & O). exact (On x O). }
  assert (Hlen : forall q, In q qs -> length (p_costs q) = length (p_rxns q)).
  { intros q Iq. destruct (Forall2_In_r _ _ _ _ Hqs Iq) as (p & _ & l & G & F & E & _). rewrite E, map_length. apply Forall2_length in F, G. congruence. }
  assert (Hq : forall q x, In q qs -> In x (p_rxns q) -> on_pathways xcost rs (concat per) x).
  { intros q x Iq Ix. destruct (Forall2_In_r _ _ _ _ Hqs Iq) as (p & _ & l & _ & F & _). destruct (Forall2_In_r _ _ _ _ F Ix) as (y & _ & _ & O). exact O. }
  assert (Oq : forall x, on_pathways xcost rs (concat per) x -> exists q x', In q qs /\ In x' (p_rxns q) /\ xeq x' x = true).
  { intros x (p & l & Ip & G & Il). destruct (Forall2_In_l _ _ _ _ Hqs Ip) as (q & Iq & l' & G' & F & _). pose proof (through_fun rs p l l' G G') as <-.
    destruct (Forall2_In_l _ _ _ _ F Il) as (x' & Ix' & Ex & _). exists q, x'. auto. }
  split; [|split].
  { intros r Ir. apply in_map_iff in Ir as (s & <- & Is). unfold init0 in Is. apply in_add_new in Is as [[]|Is]. apply in_flat_map in Is as (p & Ip & Is). apply in_map_iff in Ip as (q & <- & Iq). destruct s as [r c]. apply in_combine_l in Is. cbn [p_rxns path_of] in Is.
    apply in_map_iff in Is as (x & <- & Ix). exists x. split; [exact (Hq q x Iq Ix)|reflexivity]. }
  { intros x Ox. destruct (Oq x Ox) as (q & x' & Iq & Ix & Ex). destruct (path_item (map (obj us) (p_rxns q)) (p_costs q) (obj us x')) as (c & Ic); [rewrite map_length; symmetry; apply Hlen; exact Iq|apply in_map; exact Ix|].
    destruct (add_all req Hreq (flat_map (fun p => combine (p_rxns p) (p_costs p)) (map (path_of C comp_of energy_of listed us) qs)) [] (obj us x', c)) as (s & Is & Es).
    - right. apply in_flat_map. exists (path_of C comp_of energy_of listed us q). split; [apply in_map; exact Iq|exact Ic].
    - exists x', (fst s). split; [exact (Hq q x' Iq Ix)|]. split; [exact Ex|]. split; [apply in_map; exact Is|]. destruct Es as [->|Es]; [apply Hreq|exact Es]. }
  intros ys Yi Y0 Yp T1 T2 T5 T3 T4 allowed ds Lds Ads Ods xs ms Lxs Oxs Uxs Hci Lms Mms Sum.
  set (all := rs ++ ys) in *.
  assert (Split : forall P : srxn -> Prop, (forall x, In x rs -> P x) -> (forall y, In y ys -> P y) -> forall x, In x all -> P x) by (intros P A B x I; apply in_app_iff in I as [I|I]; auto).
  assert (Aplain : forall x, In x all -> plain x) by (apply Split; [exact Hplain|intros y I; apply Yp; exact I]).
  assert (Aall : forall x, In x all -> forall e, In e (x_entries x) -> In e (all_entries given)) by (apply (Split (fun x => forall e, In e (x_entries x) -> In e (all_entries given))); [intros x I e; apply Hall; exact I|intros y I; apply Yp; exact I]).
  assert (Aus : forall x e, In x all -> In e (x_entries x) -> In (uid e) us) by (intros x e I Ie; apply Ius; exists e; split; [exact (Aall x I e Ie)|reflexivity]).
  assert (Ainj : forall x y a b, In x all -> In y all -> In a (x_entries x) -> In b (x_entries y) -> uid a = uid b -> a = b) by (intros x y a b Ix Iy Ia Ib; apply Hu; [exact (Aall x Ix a Ia)|exact (Aall y Iy b Ib)]).
  assert (Abg0 : forall x, In x all -> forall c, In c (x_coeffs x) -> (1 # 100000000 < Qabs c)%Q) by (apply (Split (fun x => forall c, In c (x_coeffs x) -> (1 # 100000000 < Qabs c)%Q)); [intros x I c; apply Hbg; exact I|intros y I; apply Yp; exact I]).
  assert (Abg : forall x c, In x all -> In c (x_coeffs x) -> (1 # 100000000 < Qabs c)%Q) by (intros x c I; apply Abg0; exact I).
  assert (Ane : forall x, In x all -> x_entries x <> []) by (apply Split; [intros x I; destruct (Fb x I) as (x0 & I0 & ->); exact (Hne x0 I0)|intros y I; apply Yp; exact I]).
  assert (Asame : forall x y, In x all -> In y all -> multiples x y -> req (obj us x) (obj us y) = true).
  { intros x y Ix Iy Mu. unfold all in Iy. apply in_app_iff in Iy as [Iy|Iy]; [|apply (T5 x y Ix Iy); left; exact Mu]. unfold all in Ix. apply in_app_iff in Ix as [Ix|Ix].
    - apply In_nth_error in Ix as (i & Ei), Iy as (j & Ej). pose proof (Fc i j x y Ei Ej Mu) as <-. assert (y = x) as -> by congruence. apply Hreq.
    - apply (T5 y x); [apply in_or_app; left; exact Iy|exact Ix|right; exact Mu]. }
  assert (Apw : forall q x, In q qs -> In x (p_rxns q) -> In x all) by (intros q x Iq Ix; apply in_or_app; left; exact (Hpw q x Iq Ix)).
  assert (Azs : forall x, In x ys -> In x all) by (intros x I; apply in_or_app; right; exact I).
  assert (Aon : forall x, allowed x -> In x all) by (intros x ([O|O] & _); apply in_or_app; [left; exact (On x O)|right; exact O]).
  set (init := with_intermediates req cost init0 (map (obj us) ys)). set (cands := pool req (clean (map fst init)) net0 init).
  specialize (Find (map (obj us) ys) Yi). assert (Einit : (if find then init else init0) = init) by (destruct find; [reflexivity|unfold init; rewrite (Y0 eq_refl); reflexivity]).
  fold init in Find. rewrite Einit in Find. cbv zeta in Find. fold cands in Find.
  assert (Has : forall x, allowed x -> exists s y, In s cands /\ In y all /\ fst s = obj us y /\ like x y).
  { intros x (Ox & Nx). assert (Hx : exists x', ((exists q, In q qs /\ In x' (p_rxns q)) \/ In x' ys) /\ like x' x).
    { destruct Ox as [Ox|Ox]; [|exists x; split; [right; exact Ox|intros u; reflexivity]]. destruct (Oq x Ox) as (q & x' & Iq & Ix' & Ex). exists x'. split; [left; exists q; auto|]. exact (T1 x' x (Hpw q x' Iq Ix') (On x Ox) Ex). }
    destruct Hx as (x' & Hx & Lx). destruct (cands_has us Nus all Aplain Aus Ainj Asame qs Apw Hlen T2 ys Azs net0 T3 x' Hx) as (s & y & A & B & D & E).
    { intros Bad. apply Nx. intros i. rewrite (Bad i). destruct (nth_error (listed us) i); [apply Lx|reflexivity]. }
    exists s, y. split; [exact A|]. split; [exact B|]. split; [exact D|]. intros u. rewrite <- (Lx u). apply E. }
  assert (Bd : max <= length cands).
  { destruct (cands_indices us all qs T2 ys net0 ds Ads) as (idxs & N & F); [intros x I; apply Has, Ods; exact I|]. rewrite <- Lds, <- (Forall2_length _ _ _ F), <- (seq_length (length cands) 0). apply NoDup_incl_length; [exact N|].
    intros i I. destruct (Forall2_In_l _ _ _ _ F I) as (x & _ & s & E & _). apply in_seq. assert (i < length cands) by (apply nth_error_Some; fold init0 init in E; fold cands in E; congruence). lia. }
  destruct (cands_indices us all qs T2 ys net0 xs (unrelated_apart xs Uxs)) as (idxs & N & F); [intros x I; apply Has, Oxs; exact I|]. fold init0 init in F. fold cands in F.
  assert (F' : Forall2 (fun i (mx : Q * srxn) => exists s, nth_error cands i = Some s /\ exists y, In y all /\ fst s = obj us y /\ like (snd mx) y) idxs (combine ms xs)).
  { clear - F Lms. revert ms Lms. induction F as [|i x idxs xs H _ IH]; intros [|q ms] L; try discriminate; cbn [combine]; constructor; [exact H|apply IH; cbn in L; lia]. }
  destruct (picked (fun s (mx : Q * srxn) => exists y, In y all /\ fst s = obj us y /\ like (snd mx) y) cands (combine ms xs) idxs N F') as (steps & mx & Sub & Pm & Fs).
  set (ms0 := map fst mx). set (xs0 := map snd mx).
  assert (Emx : mx = combine ms0 xs0) by (unfold ms0, xs0; clear; induction mx as [|[a b] l IH]; cbn; [reflexivity|rewrite <- IH; reflexivity]).
  assert (Pxs : Permutation xs xs0) by (unfold xs0; rewrite <- (combine_snd ms xs) at 1 by exact Lms; apply Permutation_map; exact Pm).
  assert (Pms : Permutation ms ms0) by (unfold ms0; rewrite <- (combine_fst ms xs) at 1 by exact Lms; apply Permutation_map; exact Pm).
  assert (Ix0 : forall x, In x xs0 -> In x all) by (intros x I; apply Aon, (Oxs x), (Permutation_in _ (Permutation_sym Pxs) I)).
  assert (Fx : Forall2 (fun s x => exists y, In y all /\ fst s = obj us y /\ like x y) steps xs0) by (unfold xs0; clear - Fs; induction Fs; cbn; constructor; assumption).
  assert (Ov' : forall l i, (overall l (map fst steps) i == match nth_error (listed us) i with Some u => together l xs0 u | None => 0 end)%Q).
  { intros l i. clear - Fx Nus Aus Hlisted. revert l. unfold overall, together. induction Fx as [|s x st xs0 (y & Iy & Ey & L) _ IH]; intros l; [destruct l; destruct (nth_error (listed us) i); reflexivity|]. destruct l as [|a l]; [destruct (nth_error (listed us) i); reflexivity|].
    cbn [map combine]. rewrite sumQ_cons, IH. cbn [fst snd]. rewrite Ey, (obj_amounts us Nus all Aus y Iy i). destruct (nth_error (listed us) i) as [u|]; [rewrite sumQ_cons; cbn [fst snd]; rewrite (L u); reflexivity|ring]. }
  destruct (Find Hchunk Hcpus (conj (Nat.le_trans _ _ _ (proj1 Lxs) (proj2 Lxs)) Bd)) with (steps := steps) (ms := ms0) as (paths & q & ms' & J & Iq & Cq & Em & Fq).
  - intros s I. destruct (cands_from us all qs Apw ys Azs net0 s I) as (x & Ix & ->). apply (obj_between us Nus all Aplain Aus Ainj Abg x Ix). exact (Ane x Ix).
  - intros s r I Rs Er. exists s. split; [exact I|]. destruct (cands_from us all qs Apw ys Azs net0 s I) as (x & Ix & Ex). rewrite Ex in *. apply T4; [exact Ix|exact Er|]. exact (obj_restated us Nus all Aplain Aus Ainj Abg x r Ix Rs).
  - exact Sub.
  - rewrite (Forall2_length _ _ _ Fx), <- (Permutation_length Pxs). exact Lxs.
  - intros l Ll Z. apply (unrelated_perm xs xs0 Pxs Uxs); [rewrite Ll, map_length; exact (Forall2_length _ _ _ Fx)|]. intros u. destruct (in_dec Nat.eq_dec u (listed us)) as [D|D].
    + apply In_nth_error in D as (i & Ei). rewrite <- (Z i), Ov', Ei. reflexivity.
    + unfold together. apply sumQ_all_zero. intros [a x] I. cbn [fst snd]. apply in_combine_r in I. rewrite (amount_out us all Aus x u (Ix0 x I)); [ring|]. intros Iu. apply D. apply (in_listed us Nus). exact Iu.
  - unfold ms0. rewrite map_length. symmetry. exact (Forall2_length _ _ _ Fs).
  - rewrite Forall_forall in Mms |- *. intros a Ia. apply Mms. exact (Permutation_in _ (Permutation_sym Pms) Ia).
  - intros i. rewrite Ov'. destruct (nth_error (listed us) i) as [u|] eqn:Ei.
    + rewrite <- (Sum i u Ei). apply together_perm. rewrite <- Emx. apply Permutation_sym. exact Pm.
    + unfold turnover. rewrite Pn. symmetry. apply sumQ_all_zero. intros [e a] I. cbn [fst snd]. destruct (Nat.eqb_spec (e_id e) i) as [<-|_]; [|reflexivity]. exfalso. apply in_combine_l in I.
      destruct (Forall2_In_r _ _ _ _ F2 I) as (g & _ & Sg & _). congruence.
  - intros Hfi Bad. apply (Hci Hfi). apply (circle_perm _ _ _ xs0 xs (Permutation_sym Pxs)).
    assert (Eg : map e_comp res = map comp (firstn (length fs) gs)).
    { rewrite (Forall2_length _ _ _ G1). clear - F2. revert gs F2. induction res as [|e res IH]; intros gs F2; [reflexivity|]. cbn [app] in F2. inversion F2 as [|g ? gs' ? (_ & Sg) F2']; subst. cbn [length firstn map]. f_equal; [exact Sg|exact (IH gs' F2')]. }
    rewrite Eg in Bad. refine (circle_map _ _ _ _ _ _ _ _ Bad). clear - Fx Nus Aus Hlisted. induction Fx as [|s x st xs0 (y & Iy & Ey & L) _ IH]; cbn [map]; constructor; [|exact IH].
    assert (G : forall e, In e ents -> exists u, e_comp e = comp_of u /\ (turnover (fst s) (e_id e) == amount x u)%Q).
    { intros e Ie. unfold ents, numbered in Ie. apply in_map_iff in Ie as (u & <- & Iu). exists u. split; [reflexivity|]. cbn [e_id entry_of]. rewrite Ey, (obj_amounts us Nus all Aus y Iy (position u (listed us))), (position_nth _ _ Iu). symmetry. apply L. }
    split; intros f (e & Ie & Ef & U); destruct (G e Ie) as (u & Eu & Ea); exists u; (split; [rewrite <- Eu; exact Ef|]); rewrite Ea in U; lra.
  - exists paths, q, ms', ms0, xs0. split; [rewrite Eq; exact J|]. split; [exact Iq|]. split; [exact Cq|]. split; [exact Em|]. split; [unfold ms0, xs0; rewrite !map_length; reflexivity|]. split; [rewrite <- Emx; exact Pm|].
    apply (through _ _ _ _ _ _ Fx Fq). intros s x r (y & Iy & Ey & L) (r' & R1 & R2 & R3). exists r'. split; [|split; assumption]. rewrite Ey in R1. intros i.
    rewrite (obj_restated us Nus all Aplain Aus Ainj Abg y r' Iy R1 i). destruct (nth_error (listed us) i); [symmetry; apply L|reflexivity].
Qed.
End Chain.
