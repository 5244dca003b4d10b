(* Vocabulary for C94-C97. *)
From Verif Require Import Prelude NumQ SumQ ReactionModel ReactionSpec GibbsModel.
Open Scope nat_scope.

(* Equal tuples of composition, energy and id. *)
Definition same_interp_hash (a b : ientry) : Prop :=
  let '(c, e, i) := interp_hash_key a in let '(c', e', i') := interp_hash_key b in c = c' /\ (e == e')%Q /\ i = i'.

(* The shares of the items of d: positive numbers that sum to one and are in the ratio
   of the amounts. *)
Definition shares (d fr : list (nat * Q)) : Prop :=
  map fst fr = map fst d /\ (sumQ snd fr == 1)%Q /\ (forall c w, In (c, w) fr -> (0 < w)%Q)
  /\ forall i j c k c' k' w w', nth_error d i = Some (c, k) -> nth_error d j = Some (c', k') ->
       nth_error fr i = Some (c, w) -> nth_error fr j = Some (c', w') -> (w * k' == w' * k)%Q.

(* c is an open element alone. *)
Definition pure_open (C : chem) (mu : list (nat * Q)) (c : nat) : Prop := exists el, elems C c = [el] /\ In el (map fst mu).
(* A phase of an open element alone counts with the chemical potential of its atoms. *)
Definition at_potential (C : chem) (mu : list (nat * Q)) (e e' : entry) : Prop :=
  e_id e' = e_id e /\ e_comp e' = e_comp e
  /\ (pure_open C mu (e_comp e) -> (e_energy e' == sumQ (fun em => snd em * amt C (e_comp e) (fst em)) mu)%Q)
  /\ (~ pure_open C mu (e_comp e) -> (e_energy e' == e_energy e)%Q).
