(* The reactions of an enumerator, and the ways in which their phases can react. *)
From Coq Require Import Lia.
From Verif Require Import Prelude NumQ SumQ ListFacts UtilsModel UtilsSpec UtilsProofs ReactionModel ReactionSpec EnumModel EnumSpec EnumProofs EnumReactProofs EnumLinkModel LinModel LinSpec LinProofs LinBalanceProofs CoefProofs FreeSpec FreeProofs
  RxnSetModel RxnSetSpec NetModel YenModel YenSpec FlowModel NetJobModel NetJobSpec JoinModel JoinSpec JoinProofs.
Open Scope nat_scope.

Section One.
Variable C : chem.
Hypothesis W : wf_chem C.
Hypothesis Hbig : forall c e, In e (ReactionModel.elems C c) -> (1 # 100 < amt C (red C c) e)%Q.
Variable ent : nat -> entry.
Hypothesis Hid : forall i, e_id (ent i) = i.
Context {D : Type}.
Variable diagram : list nat -> D.
Variable wait : nat -> list (list (list (list nat * list nat) * D)) -> list (list (list (list nat * list nat) * D)) * list (list (list (list nat * list nat) * D)).
Hypothesis Hw : valid_schedule wait.
Variable entries : list nat.
Hypothesis Hn : NoDup entries.
Hypothesis Hel : forall e, In e entries -> ReactionModel.elems C (e_comp (ent e)) <> [].
Notation solve := (entry_solve C ent).
Notation rank := (entry_rank C ent).
Notation here := (in_set C ent).
Notation outs_of en := (enumerated C ent solve rank diagram wait entries en).

Definition few_ways (en : enumerator) (l : list nat) : Prop := exists d, d <= o_constraints (en_options en) /\ independent_ways C (formula C ent) l d.
Definition looks_freely (en : enumerator) (r p : list nat) : Prop := looks_at C ent entries en r p /\ few_ways en (r ++ p).

Lemma same_permutation (a b : list nat) : NoDup a -> NoDup b -> EnumSpec.same_set a b -> Permutation a b.
Proof. intros Na Nb S. apply NoDup_Permutation; [exact Na|exact Nb|exact S]. Qed.
Lemma looks_nodup en r p : looks_at C ent entries en r p -> NoDup r /\ NoDup p.
Proof.
  intros (R & _). unfold in_reach in R. destruct (en_open en).
  - assert (No : NoDup (open_ones C ent entries en)) by (unfold open_ones; destruct (en_open en); [apply NoDup_filter; exact Hn|constructor]).
    assert (Io : incl (open_ones C ent entries en) entries) by (unfold open_ones; destruct (en_open en); [intros x Hx; apply filter_In in Hx; tauto|intros x []]).
    destruct R as [R|R]; destruct (open_fit entries Hn _ _ _ _ No Io R) as (_ & (A & B) & _); split; assumption.
  - destruct R as [R1 R2]. destruct (combo_fit entries Hn _ _ _ R1 R2) as (_ & N & _). exact N.
Qed.

Lemma enumerated_free en : usable en -> exists xs, outs_of en = Ok xs
  /\ (forall x, In x xs -> plain (set_rxn C x) /\ (forall e, In e (x_entries (set_rxn C x)) -> exists i, In i entries /\ e = here i)
      /\ exists r p, looks_freely en r p /\ turns C ent r p (set_rxn C x))
  /\ forall r p, looks_at C ent entries en r p /\ determined C (formula C ent) r p -> exists x, In x xs /\ turns C ent r p (set_rxn C x).
Proof.
  intros Us. destruct (enumerated_full C W Hbig ent Hid diagram wait Hw entries Hn Hel en Us) as (xs & E & Hobj & Hx & Hf). exists xs. split; [exact E|]. split; [|intros r p (L & Dt); exact (Hf r p L Dt)].
  intros x Ix. destruct (Hx x Ix) as (P & He & r & p & L & T). split; [exact P|]. split; [exact He|]. exists r, p. split; [|exact T]. split; [exact L|].
  destruct (Hobj x Ix) as (r0 & p0 & t & l & (Ne & Nd & _) & Dj & El & Il & Ha). apply accept_iff in Ha as [(_ & _ & Er & Nc) _]; [|apply Us].
  destruct (object_turns C W ent Hid solve rank (entry_solve_length C ent) r0 p0 t l x (proj1 Ne) (proj2 Ne) El Il Er) as (a & b & Hab & T' & _).
  assert (Rk : er_constraints (see_object C x) = num_constraints (length r0) (length p0) (rank r0 p0)).
  { unfold react_objects in El. destruct (real_balance C ent solve rank r0 p0) as [y|]; [|discriminate]. cbn [bind] in El. injection El as <-. destruct Il as [<-|[<-|[]]]; reflexivity. }
  rewrite Rk, constraints_max in Nc. assert (N0 : NoDup (r0 ++ p0)) by (apply NoDup_app_intro; [apply Nd|apply Nd|exact Dj]).
  destruct (ways_rank C W (formula C ent) (map (formula C ent) r0) (map (formula C ent) p0) (r0 ++ p0) N0 (map_app _ _ _)) as [_ Wy]. rewrite !map_length in Wy. fold (entry_rank C ent r0 p0) in Wy.
  exists (length r0 + length p0 - rank r0 p0). split; [lia|]. destruct (turns_sides C ent a b r p (set_rxn C x) T' T) as [S1 S2]. destruct (looks_nodup en r p L) as [Nr Np].
  eapply ways_perm; [|exact Wy]. destruct Hab as [[-> ->]|[-> ->]].
  - apply Permutation_app; apply same_permutation; try assumption; apply Nd.
  - eapply perm_trans; [apply Permutation_app_comm|]. apply Permutation_app; apply same_permutation; try assumption; apply Nd.
Qed.
End One.

Section Sets.
Variable C : chem.
Hypothesis W : wf_chem C.
Hypothesis Hbig : forall c e, In e (ReactionModel.elems C c) -> (1 # 100 < amt C (red C c) e)%Q.
Variable ent : nat -> entry.
Hypothesis Hid : forall i, e_id (ent i) = i.
Context {D : Type}.
Variable diagram : list nat -> D.
Variable wait : nat -> list (list (list (list nat * list nat) * D)) -> list (list (list (list nat * list nat) * D)) * list (list (list (list nat * list nat) * D)).
Hypothesis Hw : valid_schedule wait.
Variable entries : list nat.
Hypothesis Hn : NoDup entries.
Hypothesis Hne : entries <> [].
Hypothesis Hel : forall e, In e entries -> ReactionModel.elems C (e_comp (ent e)) <> [].
Variable arrange : list sentry -> list sentry.
Hypothesis Harr : arranges arrange.
Variable argsort : list Q -> list nat.
Hypothesis Harg : forall l, Permutation (argsort l) (seq 0 (length l)).
Variable shuffle : list nat -> list nat.
Hypothesis Hsh : forall l, Permutation (shuffle l) l.
Notation solve := (entry_solve C ent).
Notation rank := (entry_rank C ent).

Lemma free_set_made en : usable en -> (forall xs, enumerated C ent solve rank diagram wait entries en = Ok xs -> sharp (map (set_rxn C) xs)) ->
  exists s out, enumerate_set C ent solve rank diagram arrange argsort shuffle wait entries en = Ok s
  /\ (well_formed s /\ get_rxns s = Ok out /\ r_entries s = arrange (map (in_set C ent) entries) /\ r_open s = None /\ r_chempot s = 0%Q)
  /\ (exists xs, enumerated C ent solve rank diagram wait entries en = Ok xs /\ incl out (map (set_rxn C) xs))
  /\ (forall x, In x out -> plain x /\ (forall e, In e (x_entries x) -> exists i, In i entries /\ e = in_set C ent i) /\ exists r p, looks_freely C ent entries en r p /\ turns C ent r p x)
  /\ forall r p, looks_at C ent entries en r p -> determined C (formula C ent) r p -> exists x, In x out /\ turns C ent r p x.
Proof.
  intros Us Sh. destruct (general_set_made C ent Hid entries Hn Hne arrange Harr argsort Harg shuffle Hsh _ en_duplicates usable (looks_freely C ent entries) _ (enumerated_free C W Hbig ent Hid diagram wait Hw entries Hn Hel) en Us Sh)
    as (s & out & H1 & H2 & H3 & H4 & H5).
  exists s, out. split; [exact H1|]. split; [exact H2|]. split; [exact H3|]. split; [exact H4|]. intros r p L Dt. apply H5. split; assumption.
Qed.

Theorem free_enumeration ens : ens <> [] -> (forall en, In en ens -> usable en) ->
  (forall outs, Forall2 (fun en xs => enumerated C ent solve rank diagram wait entries en = Ok xs) ens outs -> sharp (map (set_rxn C) (concat outs))) ->
  exists s out, enumeration_job C ent solve rank diagram arrange argsort shuffle wait ens entries = Ok (Some s) /\ get_rxns s = Ok out
  /\ (forall x, In x out -> exists en r p d, In en ens /\ looks_at C ent entries en r p /\ turns C ent r p x
       /\ independent_ways C (fun i => red C (e_comp (ent i))) (r ++ p) d /\ d <= o_constraints (en_options en)
       /\ (o_constraints (en_options en) = 1 -> one_way C (fun i => red C (e_comp (ent i))) (r ++ p))).
Proof.
  intros Hens Us Sh.
  destruct (general_enumeration_spec C ent Hid entries Hn Hne arrange Harr argsort Harg shuffle Hsh _ en_duplicates usable (looks_freely C ent entries) _ (enumerated_free C W Hbig ent Hid diagram wait Hw entries Hn Hel) ens Hens Us Sh)
    as (s & out & H1 & H2 & _ & H4 & _). exists s, out. split; [exact H1|]. split; [exact H2|]. intros x Ix. destruct (H4 x Ix) as (en & Ie & _ & _ & r & p & (L & d & Hd & Wy) & T).
  exists en, r, p, d. split; [exact Ie|]. split; [exact L|]. split; [exact T|]. split; [exact Wy|]. split; [exact Hd|]. intros E1. apply (ways_one C _ _ d); [lia|exact Wy].
Qed.
End Sets.
