(* The order in which limited_powerset lists the combinations. *)
From Verif Require Import Prelude UtilsModel UtilsSpec UtilsProofs EnumSpec.
Open Scope nat_scope.

Lemma pair_app {A} (r p : A) l1 l2 : subseq [r; p] (l1 ++ l2) <-> subseq [r; p] l1 \/ (In r l1 /\ In p l2) \/ subseq [r; p] l2.
Proof.
  induction l1 as [|x l1 IH]; cbn [app].
  - split; [intros H; right; right; exact H|intros [H|[[[] _]|H]]; [inversion H|exact H]].
  - split.
    + intros H. inversion H as [|? ? ? H'|? ? ? H']; subst.
      * apply IH in H' as [H'|[[I J]|H']]; [left; apply subseq_skip; exact H'|right; left; split; [right; exact I|exact J]|right; right; exact H'].
      * assert (I : In p (l1 ++ l2)) by (apply (subseq_In _ _ p H'); left; reflexivity). apply in_app_iff in I as [I|I]; [|right; left; split; [left; reflexivity|exact I]].
        left. apply subseq_take. apply in_split in I as (u & v & ->). clear. induction u as [|y u IH]; cbn; [apply subseq_take, subseq_nil_l|apply subseq_skip; exact IH].
    + intros [H|[[[->|I] J]|H]].
      * inversion H as [|? ? ? H'|? ? ? H']; subst; [apply subseq_skip, IH; left; exact H'|]. apply subseq_take. clear - H'. induction l1 as [|y l1 IH]; inversion H'; subst; cbn [app]; [apply subseq_skip, IH; assumption|apply subseq_take, subseq_nil_l].
      * apply subseq_take. clear - J. induction l1 as [|y l1 IH]; cbn [app]; [|apply subseq_skip; exact IH]. apply in_split in J as (u & v & ->). induction u as [|y u IH]; cbn; [apply subseq_take, subseq_nil_l|apply subseq_skip; exact IH].
      * apply subseq_skip, IH. right; left. split; assumption.
      * apply subseq_skip, IH. right; right. exact H.
Qed.
Lemma pair_map {A} (x : A) r p l : subseq [r; p] (map (cons x) l) <-> exists r0 p0, r = x :: r0 /\ p = x :: p0 /\ subseq [r0; p0] l.
Proof.
  split.
  - induction l as [|c l IH]; intros H; [inversion H|]. cbn [map] in H. inversion H as [|? ? ? H'|? ? ? H']; subst.
    + destruct (IH H') as (r0 & p0 & E1 & E2 & S). exists r0, p0. split; [exact E1|]. split; [exact E2|apply subseq_skip; exact S].
    + assert (I : In p (map (cons x) l)) by (apply (subseq_In _ _ p H'); left; reflexivity). apply in_map_iff in I as (p0 & <- & I). exists c, p0. split; [reflexivity|]. split; [reflexivity|].
      apply subseq_take. apply in_split in I as (u & v & ->). clear. induction u as [|y u IH]; cbn; [apply subseq_take, subseq_nil_l|apply subseq_skip; exact IH].
  - intros (r0 & p0 & -> & -> & S). induction l as [|c l IH]; [inversion S|]. cbn [map]. inversion S as [|? ? ? H'|? ? ? H']; subst; [apply subseq_skip, IH; exact H'|]. apply subseq_take.
    assert (I : In p0 l) by (apply (subseq_In _ _ p0 H'); left; reflexivity). apply (in_map (cons x)) in I. apply in_split in I as (u & v & ->). clear. induction u as [|y u IH]; cbn; [apply subseq_take, subseq_nil_l|apply subseq_skip; exact IH].
Qed.

Definition differ (l r p : list nat) : Prop := exists common a b r' p', r = common ++ a :: r' /\ p = common ++ b :: p' /\ subseq [a; b] l.

Lemma pair_tail x (a b : nat) l : subseq [a; b] (x :: l) -> a <> x -> subseq [a; b] l.
Proof. intros H N. inversion H; subst; [assumption|contradiction]. Qed.

Lemma take_or_skip {A} (s : list A) x l : subseq s (x :: l) -> subseq s l \/ exists s0, s = x :: s0 /\ subseq s0 l.
Proof. intros H. inversion H; subst; [left; assumption|right; eexists; split; [reflexivity|assumption]]. Qed.

Lemma comb_pairs l : NoDup l -> forall k r p, subseq [r; p] (combinations l k) <-> subseq r l /\ length r = k /\ subseq p l /\ length p = k /\ differ l r p.
Proof.
  induction 1 as [|x l Nx Nl IH]; intros k r p.
  - split.
    + destruct k; cbn; intros H; [inversion H; subst; match goal with H : subseq _ [] |- _ => inversion H end|inversion H].
    + intros (S1 & _ & _ & _ & c & a & b & r' & p' & -> & _). inversion S1. destruct c; discriminate.
  - destruct k as [|k].
    + rewrite combinations_0. split; [intros H; inversion H; subst; match goal with H : subseq _ [] |- _ => inversion H end|].
      intros (_ & L & _ & _ & c & a & b & r' & p' & -> & _). rewrite app_length in L. cbn in L. lia.
    + cbn [combinations]. rewrite pair_app, pair_map. split.
      * intros [(r0 & p0 & -> & -> & S)|[[I J]|S]].
        -- apply IH in S as (S1 & L1 & S2 & L2 & c & a & b & r' & p' & E1 & E2 & S). split; [apply subseq_take; exact S1|]. split; [cbn; lia|]. split; [apply subseq_take; exact S2|]. split; [cbn; lia|].
           exists (x :: c), a, b, r', p'. split; [rewrite E1; reflexivity|]. split; [rewrite E2; reflexivity|apply subseq_skip; exact S].
        -- apply in_map_iff in I as (r0 & <- & I). apply in_combinations in I as (S1 & L1), J as (S2 & L2). split; [apply subseq_take; exact S1|]. split; [cbn; lia|]. split; [apply subseq_skip; exact S2|]. split; [exact L2|].
           destruct p as [|b p']; [discriminate|]. exists [], x, b, r0, p'. split; [reflexivity|]. split; [reflexivity|]. apply subseq_take.
           assert (Ib : In b l) by (apply (subseq_In _ _ b S2); left; reflexivity). apply in_split in Ib as (u & v & ->). clear. induction u as [|y u IH]; cbn; [apply subseq_take, subseq_nil_l|apply subseq_skip; exact IH].
        -- apply IH in S as (S1 & L1 & S2 & L2 & c & a & b & r' & p' & E1 & E2 & S). split; [apply subseq_skip; exact S1|]. split; [exact L1|]. split; [apply subseq_skip; exact S2|]. split; [exact L2|].
           exists c, a, b, r', p'. split; [exact E1|]. split; [exact E2|apply subseq_skip; exact S].
      * intros (S1 & L1 & S2 & L2 & c & a & b & r' & p' & E1 & E2 & S).
        destruct (take_or_skip _ _ _ S1) as [S1'|(r0 & R0 & S1')], (take_or_skip _ _ _ S2) as [S2'|(p0 & P0 & S2')].
        -- right; right. apply IH. split; [exact S1'|]. split; [exact L1|]. split; [exact S2'|]. split; [exact L2|]. exists c, a, b, r', p'. split; [exact E1|]. split; [exact E2|].
           apply (pair_tail x); [exact S|]. intros ->. apply Nx. apply (subseq_In _ _ x S1'). rewrite E1. apply in_app_iff. right; left; reflexivity.
        -- exfalso. rewrite P0 in E2. destruct c as [|y c]; cbn [app] in *.
           ++ injection E2 as <- _. apply take_or_skip in S as [S|(s0 & S0 & S)]; [apply Nx, (subseq_In _ _ x S); right; left; reflexivity|]. injection S0 as _ <-. apply Nx, (subseq_In _ _ x S). left; reflexivity.
           ++ injection E2 as <- _. apply Nx. apply (subseq_In _ _ x S1'). rewrite E1. left; reflexivity.
        -- right; left. split; [|apply in_combinations; split; assumption]. rewrite R0. apply in_map. apply in_combinations. split; [exact S1'|]. rewrite R0 in L1. cbn in L1. lia.
        -- left. exists r0, p0. split; [exact R0|]. split; [exact P0|]. rewrite R0 in L1, E1. rewrite P0 in L2, E2. cbn in L1, L2. apply IH. split; [exact S1'|]. split; [lia|]. split; [exact S2'|]. split; [lia|].
           destruct c as [|y c]; cbn [app] in *.
           ++ exfalso. injection E1 as <- _. injection E2 as <- _. apply take_or_skip in S as [S|(s0 & S0 & S)]; [|injection S0 as <-]; apply Nx; apply (subseq_In _ _ x S); left; reflexivity.
           ++ injection E1 as <- E1. injection E2 as E2. exists c, a, b, r', p'. split; [exact E1|]. split; [exact E2|]. apply (pair_tail x); [exact S|]. intros ->. apply Nx. apply (subseq_In _ _ x S1'). rewrite E1. apply in_app_iff. right; left; reflexivity.
Qed.

Lemma sizes_pairs l : NoDup l -> forall n k r p, subseq [r; p] (concat (map (combinations l) (seq k n))) <->
  (subseq r l /\ k <= length r < k + n) /\ (subseq p l /\ k <= length p < k + n) /\ before l r p.
Proof.
  intros N. induction n as [|n IH]; intros k r p; cbn [seq map concat].
  - split; [intros H; inversion H|intros ((_ & L) & _); lia].
  - assert (IN : forall c, In c (concat (map (combinations l) (seq (S k) n))) <-> subseq c l /\ S k <= length c < S k + n).
    { intros c. rewrite in_concat. split.
      - intros (cs & I & J). apply in_map_iff in I as (i & <- & I). apply in_seq in I. apply in_combinations in J as (S & L). split; [exact S|lia].
      - intros (S & L). exists (combinations l (length c)). split; [apply in_map, in_seq; lia|apply in_combinations; split; [exact S|reflexivity]]. }
    rewrite pair_app, comb_pairs, IH, IN, in_combinations by exact N. unfold before. split.
    + intros [(S1 & L1 & S2 & L2 & D)|[((S1 & L1) & S2 & L2)|((S1 & L1) & (S2 & L2) & B)]].
      * split; [split; [exact S1|lia]|]. split; [split; [exact S2|lia]|]. right. split; [lia|exact D].
      * split; [split; [exact S1|lia]|]. split; [split; [exact S2|lia]|]. left. lia.
      * split; [split; [exact S1|lia]|]. split; [split; [exact S2|lia]|]. exact B.
    + intros ((S1 & L1) & (S2 & L2) & B). destruct (Nat.eq_dec (length r) k) as [E|E].
      * destruct B as [B|(B & D)]; [right; left; split; [split; assumption|split; [exact S2|lia]]|left; split; [exact S1|]; split; [exact E|]; split; [exact S2|]; split; [lia|exact D]].
      * right; right. split; [split; [exact S1|lia]|]. split; [split; [exact S2|]|exact B]. destruct B as [B|(B & _)]; lia.
Qed.

Lemma combo_iff l n c : combo l n c <-> In c (limited_powerset l n).
Proof. unfold combo. symmetry. apply in_limited_powerset. Qed.
Theorem basic_pair_iff l n r p : NoDup l -> basic_pair l n r p <-> subseq [r; p] (limited_powerset l n).
Proof.
  intros N. unfold limited_powerset. rewrite (sizes_pairs l N). unfold basic_pair, combo. split; intros ((S1 & L1) & (S2 & L2) & B); (split; [split; [exact S1|lia]|]; split; [split; [exact S2|lia]|exact B]).
Qed.
