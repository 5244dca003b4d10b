(* The enumerators with ComputedReaction.balance as modelled in ReactionModel. *)
From Verif Require Import Prelude NumQ UtilsModel UtilsSpec ReactionModel ReactionSpec EnumModel EnumReactProofs EnumLinkModel EnumLinkProofs EnumSpec.
Open Scope nat_scope.

Theorem basic_real_complete : forall {D} C ent solve rank (diagram : list nat -> D) o entries pre tar wait, wf_chem C ->
  (forall c e, In e (ReactionModel.elems C c) -> (1#100 < amt C (red C c) e)%Q) -> (forall i, e_id (ent i) = i) ->
  (forall r p c, length (solve r p c) = length r + length p) ->
  NoDup entries -> (forall e, In e entries -> ReactionModel.elems C (e_comp (ent e)) <> []) -> o_changed o = true ->
  1 <= o_chunk o -> 1 <= o_jobs o -> valid_schedule wait ->
  exists out, enumerate_rxns (fun i => ReactionModel.elems C (e_comp (ent i))) basic_iterable basic_iter_length
                (basic_react (forward_rxn C ent solve rank) (backward_rxn C ent solve rank)) diagram o entries pre tar [] [] wait = Ok out
  /\ all_reactions o pre tar [] (forward_rxn C ent solve rank) (backward_rxn C ent solve rank)
       (fun r p => basic_pair entries (o_n o) r p /\ disjoint r p
                   /\ system_ok (fun i => ReactionModel.elems C (e_comp (ent i))) o [] r) out.
Proof.
  intros D C ent solve rank diagram o entries pre tar wait W Hbig Hid Hs Hn Hel Hch H1 H2 Hw.
  apply basic_complete; try assumption. apply real_good_balance; assumption.
Qed.
Theorem open_real_complete : forall {D} C ent solve rank (diagram : list nat -> D) o entries pre tar op wait, wf_chem C ->
  (forall c e, In e (ReactionModel.elems C c) -> (1#100 < amt C (red C c) e)%Q) -> (forall i, e_id (ent i) = i) ->
  (forall r p c, length (solve r p c) = length r + length p) ->
  NoDup entries -> NoDup op -> (forall e, In e entries \/ In e op -> ReactionModel.elems C (e_comp (ent e)) <> []) -> o_changed o = true ->
  1 <= o_chunk o -> 1 <= o_jobs o -> valid_schedule wait ->
  exists out, enumerate_rxns (fun i => ReactionModel.elems C (e_comp (ent i))) open_iterable open_iter_length
                (basic_react (forward_rxn C ent solve rank) (backward_rxn C ent solve rank)) diagram o entries pre tar op (open_combos op) wait = Ok out
  /\ all_reactions o pre tar op (forward_rxn C ent solve rank) (backward_rxn C ent solve rank)
       (fun r p => (exists solids, NoDup solids /\ (forall e, In e solids <-> In e entries /\ ~ In e op) /\ subseq solids entries
                                   /\ open_pair solids op (o_n o) r p)
                   /\ disjoint r p /\ system_ok (fun i => ReactionModel.elems C (e_comp (ent i))) o (flat_map (fun i => ReactionModel.elems C (e_comp (ent i))) op) r) out.
Proof.
  intros D C ent solve rank diagram o entries pre tar op wait W Hbig Hid Hs Hn Hno Hel Hch H1 H2 Hw.
  apply open_complete; try assumption. apply real_good_balance; assumption.
Qed.
