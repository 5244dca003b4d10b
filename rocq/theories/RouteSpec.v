(* Pathways without graphs: routes from precursors to a target. *)
From Verif Require Import Prelude NumQ NetModel NetSpec.
Open Scope nat_scope.

(* Starting with the entries ps, and have left by the last reaction, the reactions l can
   be run one after the other and the last one makes t: each uses only precursors and
   products of the one before. *)
Fixpoint route (ps : list nat) (t : nat) (have : list nat) (l : list nrxn) : Prop :=
  match l with
  | [] => In t have
  | r :: l' => is_subset (n_reactants r) (ps ++ have) /\ route ps t (n_products r) l'
  end.

Definition price (cost : nrxn -> Q) (l : list nrxn) : Q := fold_right (fun r c => (cost r + c)%Q) 0%Q l.

(* The pathways are routes over the given reactions, each once, at most k; none exactly
   if there is no route. *)
Definition routes_found (cost : nrxn -> Q) (rxns : list nrxn) (ps : list nat) (t k : nat) (pathways : list (list (payload * Q))) : Prop :=
  Forall (fun l => exists rs, l = map (fun r => (Rxn r, cost r)) rs /\ incl rs rxns /\ route ps t [] rs) pathways
  /\ NoDup pathways /\ length pathways <= Nat.max 1 k
  /\ (pathways = [] <-> forall rs, incl rs rxns -> ~ route ps t [] rs).
