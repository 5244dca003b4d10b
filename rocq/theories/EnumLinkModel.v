(* The reactions of the enumerators made of the modelled ComputedReaction: the entry
   number i stands for the entry [ent i]. *)
From Verif Require Import Prelude NumQ UtilsModel ReactionModel EnumModel.
Open Scope nat_scope.

(* What _react (enumerators/basic.py:586-600) reads off a ComputedReaction: the entries
   of both sides, is_identity, balanced, lowest_num_errors and the number of
   constraints (data["num_constraints"], which reverse() passes on). *)
Definition seen_by_react (C : chem) (r : crxn) (nc : nat) : erxn :=
  {| er_reactants := map e_id (reactant_entries r); er_products := map e_id (product_entries r);
     er_identity := is_identity (c_base r); er_balanced := balanced (c_base r);
     er_errors := num_errors (c_base r); er_constraints := nc |}.

Section Link.
Variable C : chem.
Variable ent : nat -> entry.
Variable solve : list nat -> list nat -> list nat -> list Q.   (* the pseudo-inverse solutions *)
Variable rank : list nat -> list nat -> nat.

(* enumerators/basic.py:316-320 with reactions/computed.py:49-79 and 172-176. A side is
   never empty, so balance does not raise. *)
Definition real_balance (r p : list nat) : result crxn :=
  computed_balance C (map ent r) (map ent p) (solve r p) (rank r p).
Definition unbalanced : erxn :=
  {| er_reactants := []; er_products := []; er_identity := true; er_balanced := false; er_errors := None; er_constraints := 1 |}.
Definition forward_rxn (r p : list nat) : erxn :=
  match real_balance r p with
  | Ok x => seen_by_react C x (num_constraints (length r) (length p) (rank r p))
  | Err _ => unbalanced
  end.
Definition backward_rxn (r p : list nat) : erxn :=
  match real_balance r p with
  | Ok x => seen_by_react C (computed_reverse C x) (num_constraints (length r) (length p) (rank r p))
  | Err _ => unbalanced
  end.
End Link.
