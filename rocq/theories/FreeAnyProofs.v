(* The reactions of the basic enumerator with any setting of the flags, and the ways in which their phases can react: C145. *)
From Coq Require Import Lia.
From Verif Require Import Prelude NumQ SumQ ListFacts UtilsModel UtilsSpec UtilsProofs ReactionModel ReactionSpec RxnSetSpec EnumModel EnumSpec EnumProofs EnumReactProofs EnumLinkModel LinModel FreeSpec FreeProofs
  EnumAnySpec EnumAnyProofs.
Open Scope nat_scope.

Lemma picks_from {A} (P : A -> Prop) l out x : picks P l out -> In x out -> In x l /\ P x.
Proof.
  induction 1 as [|y l out Py H IH|y l out Ny H IH]; [intros []| |].
  - intros [<-|I]; [split; [left; reflexivity|exact Py]|]. destruct (IH I) as [J K]. split; [right; exact J|exact K].
  - intros I. destruct (IH I) as [J K]. split; [right; exact J|exact K].
Qed.
Lemma picked_pair {A B} (P : A -> list B -> Prop) l outs x : Forall2 P l outs -> In x (concat outs) -> exists a out, In a l /\ P a out /\ In x out.
Proof.
  induction 1 as [|a out l outs H F IH]; [intros []|]. cbn. intros I. apply in_app_iff in I as [I|I].
  - exists a, out. split; [left; reflexivity|]. split; assumption.
  - destruct (IH I) as (b & o' & J & K). exists b, o'. split; [right; exact J|exact K].
Qed.
Lemma disjoint_nodup (a b : list nat) : NoDup a -> NoDup b -> disjoint a b -> NoDup (a ++ b).
Proof.
  intros Na Nb D. induction Na as [|x a Nx Na IH]; [exact Nb|]. cbn. constructor; [|apply IH; intros y Hy; apply D; right; exact Hy].
  intros I. apply in_app_iff in I as [I|I]; [contradiction|exact (D x (or_introl eq_refl) I)].
Qed.
Lemma seen_constraints C ent solve rank r p x : r <> [] -> p <> [] -> x = forward_rxn C ent solve rank r p \/ x = backward_rxn C ent solve rank r p ->
  er_identity x = false -> er_constraints x = num_constraints (length r) (length p) (rank r p).
Proof.
  unfold forward_rxn, backward_rxn. intros Hr Hp [->| ->] Hi; (destruct (real_balance C ent solve rank r p); [reflexivity|discriminate]).
Qed.

Theorem free_any {D} C ent solve (diagram : list nat -> D) o entries pre tar wait : wf_chem C ->
  NoDup entries -> (forall e, In e entries -> ReactionModel.elems C (e_comp (ent e)) <> []) ->
  1 <= o_chunk o -> 1 <= o_jobs o -> valid_schedule wait ->
  exists out, enumerate_rxns (fun i => ReactionModel.elems C (e_comp (ent i))) basic_iterable basic_iter_length
                (basic_react (forward_rxn C ent solve (entry_rank C ent)) (backward_rxn C ent solve (entry_rank C ent))) diagram o entries pre tar [] [] wait = Ok out
  /\ forall x, In x out -> exists r p d, basic_pair entries (o_n o) r p /\ disjoint r p
     /\ (x = forward_rxn C ent solve (entry_rank C ent) r p \/ x = backward_rxn C ent solve (entry_rank C ent) r p)
     /\ independent_ways C (fun i => red C (e_comp (ent i))) (r ++ p) d /\ d <= o_constraints o
     /\ (o_constraints o = 1 -> one_way C (fun i => red C (e_comp (ent i))) (r ++ p)).
Proof.
  intros W Hn Hel H1 H2 Hw.
  destruct (basic_any (fun i => ReactionModel.elems C (e_comp (ent i))) o entries pre tar
              (forward_rxn C ent solve (entry_rank C ent)) (backward_rxn C ent solve (entry_rank C ent)) diagram wait Hn Hel H1 H2 Hw)
    as (out & E & pairs & outs & _ & Hp & F & Pm).
  exists out. split; [exact E|]. intros x Hx. apply (Permutation_in _ Pm) in Hx. destruct (picked_pair _ _ _ _ F Hx) as ([r p] & rs & Ip & Pk & Ix).
  cbn [fst snd] in Pk. destruct (picks_from _ _ _ _ Pk Ix) as [Ib [(Hi & _ & _ & Hc) _]]. apply Hp in Ip as (Hb & Hd & _).
  assert (Hor : x = forward_rxn C ent solve (entry_rank C ent) r p \/ x = backward_rxn C ent solve (entry_rank C ent) r p) by (destruct Ib as [<-|[<-|[]]]; [left|right]; reflexivity).
  pose proof Hb as ([S1 L1] & [S2 L2] & _).
  assert (N : NoDup (r ++ p)) by (apply disjoint_nodup; [exact (subseq_NoDup _ _ S1 Hn)|exact (subseq_NoDup _ _ S2 Hn)|exact Hd]).
  destruct (number_of_ways C W (fun i => red C (e_comp (ent i))) r p N) as (d & Wd & Ed).
  exists r, p, d. split; [exact Hb|]. split; [exact Hd|]. split; [exact Hor|]. split; [exact Wd|].
  assert (Ec : er_constraints x = Nat.max 1 d).
  { rewrite <- Ed. apply (seen_constraints C ent solve (entry_rank C ent) r p x); [intros ->; cbn in L1; lia|intros ->; cbn in L2; lia|exact Hor|exact Hi]. }
  assert (Hdc : d <= o_constraints o) by lia. split; [exact Hdc|]. intros E1. apply (ways_one C _ _ d); [lia|exact Wd].
Qed.
