(* C70: the open enumerator with any setting of the flags. *)
From Verif Require Import Prelude UtilsModel UtilsSpec ReactionModel ReactionCheck RxnSetSpec RxnSetCheck EnumModel EnumSpec EnumLinkModel EnumCheck RunModel RunProofs
  EnumAnySpec EnumAnyCheck OpenAnySpec OpenAnyProofs.
Open Scope nat_scope.

(* Full claim: open phases may be on both sides, or absent (refuted in C70_both_sides_refuted and
   C70_no_open_phase_refuted). The flags are arbitrary, and nothing is assumed of the
   balancing method. *)
Theorem C70_any_flags_partial : forall {D} elems o entries pre tar op balance backward (diagram : list nat -> D) wait,
  NoDup entries -> NoDup op -> (forall e, In e entries \/ In e op -> elems e <> []) ->
  1 <= o_chunk o -> 1 <= o_jobs o -> valid_schedule wait ->
  exists out, enumerate_rxns elems open_iterable open_iter_length (basic_react balance backward) diagram o
                entries pre tar op (open_combos op) wait = Ok out
  /\ all_open_kept o pre tar op balance backward
       (fun r p => (exists solids, NoDup solids /\ (forall e, In e solids <-> In e entries /\ ~ In e op) /\ subseq solids entries
                                   /\ open_pair solids op (o_n o) r p)
                   /\ disjoint r p /\ system_ok elems o (flat_map elems op) r
                   /\ one_open_system elems o pre tar op r p /\ one_open_side (o_pfunc o) pre op r p /\ one_open_side (o_tfunc o) tar op r p) out.
Proof. exact @open_any. Qed.
Print Assumptions C70_any_flags_partial.

(* Li, Li2O and open O2: without the flag 4 Li + O2 -> 2 Li2O is also found from the pair of
   Li with Li2O and O2, where the O2 changes its side. *)
Definition li2o_any (changed : bool) (tar : list nat) : result (list erxn) :=
  enumerate_rxns (fun i => ReactionModel.elems ReactionCheck.demo (e_comp (plain_entry i))) open_iterable open_iter_length
    (basic_react (forward_rxn ReactionCheck.demo plain_entry open_solve (fun _ _ => 2)) (backward_rxn ReactionCheck.demo plain_entry open_solve (fun _ _ => 2)))
    (fun k => k) (any_options changed) [0; 4; 7] [] tar [7] (open_combos [7]) lifo_any.
Example C70_any_flags_demo : exists a b, li2o_any true [0] = Ok [b] /\ li2o_any false [0] = Ok [b; a]
  /\ er_reactants a = [4; 7] /\ er_products a = [0] /\ er_errors a = Some 1 /\ er_errors b = Some 0
  /\ NoDup [0; 4; 7] /\ (forall e, In e [0; 4; 7] \/ In e [7] -> ReactionModel.elems ReactionCheck.demo (e_comp (plain_entry e)) <> []).
Proof.
  do 2 eexists. split; [vm_compute; reflexivity|]. split; [vm_compute; reflexivity|]. do 4 (split; [reflexivity|]).
  split; [repeat constructor; cbn; intuition discriminate|]. intros e [[<-|[<-|[<-|[]]]]|[<-|[]]]; vm_compute; discriminate.
Qed.
