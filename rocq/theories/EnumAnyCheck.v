(* A concrete case for the basic enumerator with any setting of the flags. *)
From Verif Require Import Prelude NumQ UtilsModel ReactionModel ReactionCheck EnumModel EnumLinkModel RunModel EnumCheck.
From Verif Require Import RxnSetCheck.
Open Scope nat_scope.

Definition any_options (changed : bool) : options :=
  {| o_n := 2; o_pfunc := IsSuperset; o_tfunc := Intersection; o_chemsys := None; o_chunk := 7; o_jobs := 100;
     o_unbalanced := true; o_changed := changed; o_constraints := 1 |}.
(* 4 LiO -> 2 Li2O + O2; balanced between Li2O and O2 with LiO, the O2 changes its side *)
Definition mixed_solve (r p c : list nat) : list Q :=
  if list_eqb r [0] && list_eqb p [7; 8] then [-2#1; -1#1; 4#1]%Q
  else if list_eqb r [8] && list_eqb p [0; 7] then [-4#1; 2#1; 1#1]%Q else repeat 0%Q (length r + length p).
Definition mixed_enumerate (changed : bool) (pre tar : list nat) : result (list erxn) :=
  enumerate_rxns (fun i => ReactionModel.elems ReactionCheck.demo (e_comp (plain_entry i))) basic_iterable basic_iter_length
    (basic_react (forward_rxn ReactionCheck.demo plain_entry mixed_solve (fun _ _ => 2)) (backward_rxn ReactionCheck.demo plain_entry mixed_solve (fun _ _ => 2)))
    (fun k => k) (any_options changed) [0; 7; 8] pre tar [] [] lifo_any.
