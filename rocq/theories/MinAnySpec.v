(* Vocabulary for the minimising enumerators with any setting of the flags. *)
From Verif Require Import Prelude UtilsModel UtilsSpec EnumModel EnumSpec EntrySetSpec MinSpec EnumAnySpec.
Open Scope nat_scope.

(* out holds, up to order, for each combination searched, the reactions wanted and kept
   by the flags among those at the kinks of its interface. *)
Definition interface_kept {P} elems formula epa (build : list nat -> result P) kinks balance (o : options)
    (entries precursors targets open_entries : list nat) (out : list erxn) : Prop :=
  exists cs outs, NoDup cs
  /\ (forall c, In c cs <-> combination entries open_entries c /\ searched elems o precursors targets open_entries c)
  /\ Forall2 (fun c rs => exists k s pd a b ks all,
       chemsys_of elems (flat_map elems open_entries) c k /\ within elems entries k s /\ build s = Ok pd
       /\ ends c a b /\ kinks pd a b = Ok ks /\ Forall2 (of_ground_states formula epa s balance) ks all
       /\ picks (fun x => kept_rxn o x /\ wanted o precursors targets open_entries x) all rs) cs outs
  /\ Permutation out (concat outs).
