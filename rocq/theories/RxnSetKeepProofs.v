(* The representative choice of filter_duplicates: _get_idxs_to_keep. *)
From Verif Require Import Prelude NumQ ListFacts RxnSetModel RxnSetBaseProofs RxnSetProofs.
Open Scope nat_scope.

Lemma memb_nat_false n l : memb Nat.eqb n l = false <-> ~ In n l.
Proof. rewrite <- memb_nat. destruct (memb Nat.eqb n l); split; congruence. Qed.

Section Keep.
Variable rows : list (list Q).
Variable order ensure : list nat.
Let R (i j : nat) : bool := is_multiple (nth i rows []) (nth j rows []).
Let class (i : nat) : list nat := filter (fun j => R j i) order.

Lemma in_class i j : In j (class i) <-> In j order /\ R j i = true.
Proof. unfold class. exact (filter_In (fun j => R j i) j order). Qed.

(* --- without assumptions on R beyond reflexivity --- *)
Lemma keep_loop_weak todo : incl todo order -> (forall i, In i order -> R i i = true) -> forall K X,
  (forall x, In x X -> ~ In x ensure) -> incl K order ->
  exists K', keep_loop rows order ensure todo K X = Ok K' /\ incl K K' /\ incl K' order
  /\ (forall i, In i todo -> In i ensure -> In i K').
Proof.
  induction todo as [|idx todo IH]; intros Ht Hr K X HX HK.
  - exists K. split; [reflexivity|]. split; [intros x H; exact H|]. split; [exact HK|]. intros i [].
  - assert (Hidx : In idx order) by (apply Ht; left; reflexivity).
    assert (Ht' : incl todo order) by (intros x Hx; apply Ht; right; exact Hx).
    specialize (IH Ht' Hr). cbn [keep_loop]. destruct (memb Nat.eqb idx X) eqn:E.
    + apply memb_nat in E. destruct (IH K X HX HK) as (K' & H1 & H2 & H3 & H4). exists K'.
      split; [exact H1|]. split; [exact H2|]. split; [exact H3|]. intros i [<-|Hi] He; [exfalso; apply (HX idx); assumption|].
      apply H4; assumption.
    + fold (R). change (filter (fun j => is_multiple (nth j rows []) (nth idx rows [])) order) with (class idx).
      assert (Hc : In idx (class idx)) by (apply in_class; split; [exact Hidx|apply Hr; exact Hidx]).
      destruct (filter (fun j => memb Nat.eqb j ensure) (class idx)) as [|o os] eqn:Eo.
      * assert (Hne : forall j, In j (class idx) -> ~ In j ensure).
        { intros j Hj He. apply memb_nat in He.
          assert (In j (filter (fun j => memb Nat.eqb j ensure) (class idx))) as H by (apply filter_In; split; assumption).
          rewrite Eo in H. destruct H. }
        destruct (class idx) as [|g gs] eqn:Eg; [destruct Hc|].
        destruct (IH (K ++ [g]) (X ++ gs)) as (K' & H1 & H2 & H3 & H4).
        { intros x Hx. apply in_app_iff in Hx as [Hx|Hx]; [apply HX; exact Hx|apply Hne; right; exact Hx]. }
        { intros x Hx. apply in_app_iff in Hx as [Hx|[<-|[]]]; [apply HK; exact Hx|].
          assert (In g (class idx)) as Hg by (rewrite Eg; left; reflexivity). apply in_class in Hg. apply Hg. }
        exists K'. split; [exact H1|]. split; [intros x Hx; apply H2, in_app_iff; left; exact Hx|]. split; [exact H3|].
        intros i [<-|Hi] He; [exfalso; apply (Hne idx); assumption|apply H4; assumption].
      * rewrite <- Eo in *.
        destruct (forallb (fun j => memb Nat.eqb j K) (filter (fun j => memb Nat.eqb j ensure) (class idx))) eqn:Ef.
        -- destruct (IH K X HX HK) as (K' & H1 & H2 & H3 & H4). exists K'.
           split; [exact H1|]. split; [exact H2|]. split; [exact H3|]. intros i [<-|Hi] He; [|apply H4; assumption].
           apply H2. rewrite forallb_forall in Ef. apply memb_nat, Ef. apply filter_In. split; [exact Hc|apply memb_nat; exact He].
        --
           destruct (IH (K ++ filter (fun j => memb Nat.eqb j ensure) (class idx))
                        (X ++ filter (fun j => negb (memb Nat.eqb j ensure)) (class idx))) as (K' & H1 & H2 & H3 & H4).
           { intros x Hx. apply in_app_iff in Hx as [Hx|Hx]; [apply HX; exact Hx|]. apply filter_In in Hx as [_ Hx].
             apply negb_true_iff, memb_nat_false in Hx. exact Hx. }
           { intros x Hx. apply in_app_iff in Hx as [Hx|Hx]; [apply HK; exact Hx|]. apply filter_In in Hx as [Hx _].
             apply in_class in Hx. apply Hx. }
           exists K'. split; [exact H1|]. split; [intros x Hx; apply H2, in_app_iff; left; exact Hx|]. split; [exact H3|].
           intros i [<-|Hi] He; [|apply H4; assumption]. apply H2, in_app_iff. right. apply filter_In.
           split; [exact Hc|apply memb_nat; exact He].
Qed.

(* --- when R is an equivalence --- *)
Hypothesis order_nodup : NoDup order.
Hypothesis R_refl : forall i, In i order -> R i i = true.
Hypothesis R_sym : forall i j, In i order -> In j order -> R i j = true -> R j i = true.
Hypothesis R_trans : forall i j k, In i order -> In j order -> In k order -> R i j = true -> R j k = true -> R i k = true.

Record inv (done K X : list nat) : Prop := {
  inv_K : incl K order;
  inv_X : incl X order;
  inv_Xc : forall x, In x X -> (exists k, In k K /\ R x k = true) /\ ~ In x ensure;
  inv_done : forall d, In d done -> exists k, In k K /\ R d k = true;
  inv_class : forall k j, In k K -> In j order -> R j k = true -> In j K \/ In j X;
  inv_free : forall k, In k K -> ~ In k ensure -> In k done;
  inv_unique : forall k k', In k K -> In k' K -> k <> k' -> R k k' = true -> In k ensure /\ In k' ensure;
  inv_nodup : NoDup K
}.

Lemma NoDup_app_disjoint {A} (l1 l2 : list A) : NoDup l1 -> NoDup l2 -> (forall x, In x l1 -> ~ In x l2) -> NoDup (l1 ++ l2).
Proof.
  induction l1 as [|x l1 IH]; intros H1 H2 Hd; [exact H2|]. inversion H1 as [|? ? Hx H1']; subst. simpl. constructor.
  - intros H. apply in_app_iff in H as [H|H]; [contradiction|]. apply (Hd x); [left; reflexivity|exact H].
  - apply IH; [assumption|assumption|]. intros y Hy. apply Hd. right. exact Hy.
Qed.

Lemma keep_loop_inv todo : forall done K X, order = done ++ todo -> inv done K X ->
  exists K' X', keep_loop rows order ensure todo K X = Ok K' /\ inv order K' X'.
Proof.
  induction todo as [|idx todo IH]; intros done K X Ho I.
  - rewrite app_nil_r in Ho. subst done. exists K, X. split; [reflexivity|exact I].
  - assert (Hidx : In idx order) by (rewrite Ho; apply in_app_iff; right; left; reflexivity).
    assert (Hnd : ~ In idx done).
    { intros H. pose proof order_nodup as N. rewrite Ho in N. apply NoDup_remove_2 in N. apply N, in_app_iff. left. exact H. }
    assert (Ho' : order = (done ++ [idx]) ++ todo) by (rewrite <- app_assoc; exact Ho).
    cbn [keep_loop]. destruct (memb Nat.eqb idx X) eqn:E.
    + apply memb_nat in E. apply (IH (done ++ [idx]) K X Ho'). destruct I. constructor; try assumption.
      * intros d Hd. apply in_app_iff in Hd as [Hd|[<-|[]]]; [apply inv_done0; exact Hd|apply inv_Xc0; exact E].
      * intros k Hk He. apply in_app_iff. left. apply inv_free0; assumption.
    + apply memb_nat_false in E.
      change (filter (fun j => is_multiple (nth j rows []) (nth idx rows [])) order) with (class idx).
      assert (Hc : In idx (class idx)) by (apply in_class; split; [exact Hidx|apply R_refl; exact Hidx]).
      destruct (filter (fun j => memb Nat.eqb j ensure) (class idx)) as [|o os] eqn:Eo.
      * assert (Hne : forall j, In j (class idx) -> ~ In j ensure).
        { intros j Hj He. apply memb_nat in He.
          assert (In j (filter (fun j => memb Nat.eqb j ensure) (class idx))) as H by (apply filter_In; split; assumption).
          rewrite Eo in H. destruct H. }
        destruct I.
        assert (Fresh : forall k, In k K -> R idx k = true -> False).
        { intros k Hk HR. destruct (inv_class0 k idx Hk Hidx HR) as [H|H]; [|contradiction].
          apply Hnd. apply inv_free0; [exact H|]. apply Hne. exact Hc. }
        assert (Hd0 : filter (fun j => R j idx) done = []).
        { destruct (filter (fun j => R j idx) done) as [|d ds] eqn:Ed; [reflexivity|exfalso].
          assert (Hd : In d (filter (fun j => R j idx) done)) by (rewrite Ed; left; reflexivity).
          apply filter_In in Hd as [Hd HR]. assert (Hdo : In d order) by (rewrite Ho; apply in_app_iff; left; exact Hd).
          destruct (inv_done0 d Hd) as (k & Hk & Hdk). apply (Fresh k Hk).
          apply (R_trans idx d k); try assumption; [apply inv_K0; exact Hk|]. apply R_sym; assumption. }
        assert (Ec : class idx = idx :: filter (fun j => R j idx) todo).
        { unfold class. rewrite Ho, filter_app, Hd0. simpl. rewrite (R_refl idx Hidx). reflexivity. }
        rewrite Ec. set (gs := filter (fun j => R j idx) todo) in *.
        assert (Gin : forall x, In x gs -> In x (class idx)) by (intros x Hx; rewrite Ec; right; exact Hx).
        apply (IH (done ++ [idx]) (K ++ [idx]) (X ++ gs) Ho'). constructor.
        -- intros x Hx. apply in_app_iff in Hx as [Hx|[<-|[]]]; [apply inv_K0; exact Hx|exact Hidx].
        -- intros x Hx. apply in_app_iff in Hx as [Hx|Hx]; [apply inv_X0; exact Hx|]. apply Gin, in_class in Hx. apply Hx.
        -- intros x Hx. apply in_app_iff in Hx as [Hx|Hx].
           ++ destruct (inv_Xc0 x Hx) as [(k & Hk & Hxk) He]. split; [|exact He]. exists k. split; [apply in_app_iff; left; exact Hk|exact Hxk].
           ++ split; [|apply Hne, Gin; exact Hx]. exists idx. split; [apply in_app_iff; right; left; reflexivity|].
              apply Gin, in_class in Hx. apply Hx.
        -- intros d Hd. apply in_app_iff in Hd as [Hd|[<-|[]]].
           ++ destruct (inv_done0 d Hd) as (k & Hk & Hdk). exists k. split; [apply in_app_iff; left; exact Hk|exact Hdk].
           ++ exists idx. split; [apply in_app_iff; right; left; reflexivity|apply R_refl; exact Hidx].
        -- intros k j Hk Hj HR. apply in_app_iff in Hk as [Hk|[<-|[]]].
           ++ destruct (inv_class0 k j Hk Hj HR) as [H|H]; [left|right]; apply in_app_iff; left; exact H.
           ++ assert (Hjc : In j (class idx)) by (apply in_class; split; assumption). rewrite Ec in Hjc.
              destruct Hjc as [<-|Hjc]; [left; apply in_app_iff; right; left; reflexivity|right; apply in_app_iff; right; exact Hjc].
        -- intros k Hk He. apply in_app_iff in Hk as [Hk|[<-|[]]]; apply in_app_iff; [left; apply inv_free0; assumption|right; left; reflexivity].
        -- intros k k' Hk Hk' Hne' HR. apply in_app_iff in Hk as [Hk|[<-|[]]]; apply in_app_iff in Hk' as [Hk'|[<-|[]]].
           ++ apply inv_unique0; assumption.
           ++ exfalso. apply (Fresh k Hk). apply R_sym; [apply inv_K0; exact Hk|exact Hidx|exact HR].
           ++ exfalso. apply (Fresh k' Hk'). exact HR.
           ++ contradiction.
        -- apply NoDup_app_disjoint; [assumption|constructor; [intros []|constructor]|].
           intros x Hx [<-|[]]. apply (Fresh idx Hx). apply R_refl. exact Hidx.
      * rewrite <- Eo in *. set (ov := filter (fun j => memb Nat.eqb j ensure) (class idx)) in *.
        assert (Hov : forall j, In j ov <-> In j (class idx) /\ In j ensure).
        { intros j. unfold ov. rewrite filter_In, memb_nat. reflexivity. }
        assert (Ho1 : In o ov) by (rewrite Eo; left; reflexivity).
        destruct (forallb (fun j => memb Nat.eqb j K) ov) eqn:Ef.
        -- apply (IH (done ++ [idx]) K X Ho'). destruct I. constructor; try assumption.
           ++ intros d Hd. apply in_app_iff in Hd as [Hd|[<-|[]]]; [apply inv_done0; exact Hd|].
              rewrite forallb_forall in Ef. exists o. split; [apply memb_nat, Ef; exact Ho1|].
              apply Hov in Ho1 as [Ho1 _]. apply in_class in Ho1 as [Ho1 HR]. apply R_sym; assumption.
           ++ intros k Hk He. apply in_app_iff. left. apply inv_free0; assumption.
        -- destruct I.
           assert (Fresh : forall k, In k K -> R idx k = true -> False).
           { intros k Hk HR. apply not_true_iff_false in Ef. apply Ef. apply forallb_forall. intros j Hj. apply memb_nat.
             apply Hov in Hj as [Hj He]. apply in_class in Hj as [Hj HR2].
             destruct (inv_class0 k j Hk Hj) as [H|H]; [|exact H|exfalso; apply (inv_Xc0 j H); exact He].
             apply (R_trans j idx k); try assumption. apply inv_K0. exact Hk. }
           assert (Fresh' : forall k j, In k K -> In j (class idx) -> R k j = true -> False).
           { intros k j Hk Hj HR. apply in_class in Hj as [Hj HR2]. apply (Fresh k Hk).
             assert (In k order) by (apply inv_K0; exact Hk). apply R_sym; try assumption. apply (R_trans k j idx); assumption. }
           set (df := filter (fun j => negb (memb Nat.eqb j ensure)) (class idx)).
           assert (Hdf : forall j, In j df <-> In j (class idx) /\ ~ In j ensure).
           { intros j. unfold df. rewrite filter_In, negb_true_iff, memb_nat_false. reflexivity. }
           apply (IH (done ++ [idx]) (K ++ ov) (X ++ df) Ho'). constructor.
           ++ intros x Hx. apply in_app_iff in Hx as [Hx|Hx]; [apply inv_K0; exact Hx|]. apply Hov in Hx as [Hx _]. apply in_class in Hx. apply Hx.
           ++ intros x Hx. apply in_app_iff in Hx as [Hx|Hx]; [apply inv_X0; exact Hx|]. apply Hdf in Hx as [Hx _]. apply in_class in Hx. apply Hx.
           ++ intros x Hx. apply in_app_iff in Hx as [Hx|Hx].
              ** destruct (inv_Xc0 x Hx) as [(k & Hk & Hxk) He]. split; [|exact He]. exists k. split; [apply in_app_iff; left; exact Hk|exact Hxk].
              ** apply Hdf in Hx as [Hx He]. split; [|exact He]. exists o. split; [apply in_app_iff; right; exact Ho1|].
                 apply Hov in Ho1 as [Ho1 _]. apply in_class in Ho1 as [Ho1 HR1]. apply in_class in Hx as [Hx HR2].
                 apply (R_trans x idx o); try assumption. apply R_sym; assumption.
           ++ intros d Hd. apply in_app_iff in Hd as [Hd|[<-|[]]].
              ** destruct (inv_done0 d Hd) as (k & Hk & Hdk). exists k. split; [apply in_app_iff; left; exact Hk|exact Hdk].
              ** exists o. split; [apply in_app_iff; right; exact Ho1|]. apply Hov in Ho1 as [Ho1 _]. apply in_class in Ho1 as [Ho1 HR1].
                 apply R_sym; assumption.
           ++ intros k j Hk Hj HR. apply in_app_iff in Hk as [Hk|Hk].
              ** destruct (inv_class0 k j Hk Hj HR) as [H|H]; [left|right]; apply in_app_iff; left; exact H.
              ** apply Hov in Hk as [Hk _]. apply in_class in Hk as [Hk HRk].
                 assert (Hjc : In j (class idx)) by (apply in_class; split; [exact Hj|]; apply (R_trans j k idx); assumption).
                 destruct (in_dec Nat.eq_dec j ensure) as [He|He]; [left|right]; apply in_app_iff; right; [apply Hov|apply Hdf]; split; assumption.
           ++ intros k Hk He. apply in_app_iff in Hk as [Hk|Hk]; apply in_app_iff; [left; apply inv_free0; assumption|].
              apply Hov in Hk as [_ Hk]. contradiction.
           ++ intros k k' Hk Hk' Hne' HR. apply in_app_iff in Hk as [Hk|Hk]; apply in_app_iff in Hk' as [Hk'|Hk'].
              ** apply inv_unique0; assumption.
              ** exfalso. apply Hov in Hk' as [Hk' _]. apply (Fresh' k k'); assumption.
              ** exfalso. apply Hov in Hk as [Hk _]. pose proof Hk as Hk2. apply in_class in Hk2 as [Hk2 _].
                 apply (Fresh' k' k); [assumption|assumption|]. apply R_sym; [exact Hk2|apply inv_K0; exact Hk'|exact HR].
              ** apply Hov in Hk. apply Hov in Hk'. split; [apply Hk|apply Hk'].
           ++ apply NoDup_app_disjoint; [assumption| |].
              ** unfold ov, class. apply NoDup_filter, NoDup_filter. assumption.
              ** intros x Hx Hx'. apply Hov in Hx' as [Hx' _]. apply (Fresh' x x Hx Hx'). apply R_refl. apply inv_K0. exact Hx.
Qed.

Theorem keep_loop_spec : exists K, keep_loop rows order ensure order [] [] = Ok K
  /\ NoDup K /\ incl K order
  /\ (forall i, In i order -> exists k, In k K /\ R i k = true)
  /\ (forall k k', In k K -> In k' K -> k <> k' -> R k k' = true -> In k ensure /\ In k' ensure)
  /\ (forall i, In i order -> In i ensure -> In i K).
Proof.
  destruct (keep_loop_inv order [] [] []) as (K & X & H & I).
  - reflexivity.
  - constructor; unfold incl; simpl; intros; try contradiction. constructor.
  - exists K. destruct I. split; [exact H|]. split; [assumption|]. split; [assumption|]. split; [assumption|].
    split; [assumption|]. intros i Hi He. destruct (inv_done0 i Hi) as (k & Hk & HR).
    destruct (inv_class0 k i Hk Hi HR) as [H1|H1]; [exact H1|]. exfalso. apply (inv_Xc0 i H1). exact He.
Qed.
End Keep.
