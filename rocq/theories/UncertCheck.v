(* Concrete cases for C102. *)
From Verif Require Import Prelude NumQ SumQ UtilsSpec ReactionModel ReactionSpec ReactionCheck UncertModel UncertSpec.
Open Scope nat_scope.

(* 2 Li2 (two entries for the species Li) + O2 -> LiO; the cheaper lithium counts. *)
Definition metal_1 : entry := mk 0 5 (-4#1).
Definition metal_2 : entry := mk 1 4 (-1#1).
Definition lio_entries : list entry := [metal_1; metal_2; mk 2 7 0; mk 3 8 (-12#1)].
Definition lio_coeffs : list Q := [-1#1; -1#1; -1#1; 2#1]%Q.
Definition lio_unc (e : entry) : option Q := nth (e_id e) [Some (6#1); Some (1#1); None; Some (2#1)]%Q None.
