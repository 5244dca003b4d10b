(* A concrete case for the minimising enumerators with any setting of the flags. *)
From Verif Require Import Prelude NumQ UtilsModel ReactionModel ReactionCheck RxnSetCheck EnumModel EnumLinkModel EnumCheck MinModel MinCheck EnumAnyCheck.
Open Scope nat_scope.

(* the oxide is balanced the wrong way round: all three phases change their side *)
Definition turned_solve (r p c : list nat) : list Q :=
  if list_eqb r [4; 7] && list_eqb p [0] then [4#1; 1#1; -2#1]%Q else min_solve r p c.
Definition turned_balance : list nat -> list nat -> result erxn := balance_seen ReactionCheck.demo plain_entry turned_solve (fun _ _ => 2).
Definition turned_demo (changed : bool) (tar : list nat) : result (list erxn) :=
  min_enumerate min_elems min_build (grand_react min_elems (fun e => e) (fun _ => 0%Q) min_kinks turned_balance (fun l => l) 1)
    (any_options changed) min_entries_list [] tar [7] lifo_any.
