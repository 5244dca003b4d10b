(* C31: the basic enumerator with any setting of the flags. *)
From Verif Require Import Prelude UtilsModel UtilsSpec ReactionModel ReactionCheck RxnSetSpec RxnSetCheck EnumModel EnumSpec EnumCheck RunModel RunProofs
  EnumAnySpec EnumAnyProofs EnumAnyCheck.
Open Scope nat_scope.

(* With remove_changed=False a pair is balanced only if its two sides have the same
   elements and one of them meets each option; what is said of the options for the
   reaction itself is the same. Nothing is assumed of the balancing method. *)
Theorem C31_any_flags : forall {D} elems o entries pre tar balance backward (diagram : list nat -> D) wait,
  NoDup entries -> (forall e, In e entries -> elems e <> []) ->
  1 <= o_chunk o -> 1 <= o_jobs o -> valid_schedule wait ->
  exists out, enumerate_rxns elems basic_iterable basic_iter_length (basic_react balance backward) diagram o
                entries pre tar [] [] wait = Ok out
  /\ all_kept o pre tar balance backward
       (fun r p => basic_pair entries (o_n o) r p /\ disjoint r p /\ system_ok elems o [] r
                   /\ one_system elems o pre tar r p /\ one_side (o_pfunc o) pre r p /\ one_side (o_tfunc o) tar r p) out.
Proof. exact @basic_any. Qed.
Print Assumptions C31_any_flags.

(* The reaction whose O2 changed its side is found as well. *)
Example C31_any_flags_demo : exists a b, mixed_enumerate true [0; 7] [8] = Ok [b] /\ mixed_enumerate false [0; 7] [8] = Ok [a; b]
  /\ er_reactants a = [0; 7] /\ er_products a = [8] /\ er_errors a = Some 1 /\ er_errors b = Some 0
  /\ NoDup [0; 7; 8] /\ (forall e, In e [0; 7; 8] -> ReactionModel.elems ReactionCheck.demo (e_comp (plain_entry e)) <> [])
  /\ @valid_schedule (list (list (list nat * list nat) * list nat)) lifo_any.
Proof.
  do 2 eexists. split; [vm_compute; reflexivity|]. split; [vm_compute; reflexivity|]. do 4 (split; [reflexivity|]).
  split; [repeat constructor; cbn; intuition discriminate|]. split; [intros e [<-|[<-|[<-|[]]]]; vm_compute; discriminate|exact lifo_any_valid].
Qed.
