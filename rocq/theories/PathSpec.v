(* Vocabulary for the properties of pathways. *)
From Verif Require Import Prelude NumQ ReactionModel RxnSetModel PathModel.
Open Scope nat_scope.

(* Numpy's closeness of two numbers. *)
Definition near (a b : Q) : Prop := (Qabs (a - b) <= (1 # 100000000) + (1 # 100000) * Qabs b)%Q.

(* The relation behind a boolean test is an equivalence. *)
Definition equivalence {A} (eqb : A -> A -> bool) : Prop :=
  (forall a, eqb a a = true) /\ (forall a b, eqb a b = true -> eqb b a = true) /\ (forall a b c, eqb a b = true -> eqb b c = true -> eqb a c = true).

(* The same class, number of reactions and number of costs. *)
Definition same_shape {R} (p q : path R) : Prop :=
  (p_coeffs p = None <-> p_coeffs q = None) /\ length (p_rxns p) = length (p_rxns q) /\ length (p_costs p) = length (p_costs q).

(* A phase is formed, or consumed, by a step of the pathway. *)
Definition formed {R} (products : R -> list nat) (p : path R) (c : nat) : Prop := exists r, In r (p_rxns p) /\ In c (products r).
Definition consumed {R} (reactants : R -> list nat) (p : path R) (c : nat) : Prop := exists r, In r (p_rxns p) /\ In c (reactants r).

(* No member of the group can start from the precursors, and each member consumes a
   phase outside the precursors which another member forms and which satisfies [ok]. *)
Definition mutually_dependent {R} (reactants products : R -> list nat) (prec : list nat) (ok : nat -> Prop) (group : list R) : Prop :=
  (forall r, In r group -> ~ (forall c, In c (reactants r) -> In c prec))
  /\ forall r, In r group -> exists r' c, In r' group /\ r' <> r /\ In c (reactants r) /\ In c (products r') /\ ~ In c prec /\ ok c.

(* The group depends on nothing but itself: the phase occurs in no reaction outside it. *)
Definition interdependent {R} (reactants products comps : R -> list nat) (prec : list nat) (p : path R) : Prop :=
  exists group, NoDup group /\ 2 <= length group /\ (forall r, In r group -> In r (p_rxns p))
  /\ mutually_dependent reactants products prec (fun c => forall r, In r (p_rxns p) -> ~ In r group -> ~ In c (comps r)) group.

(* The same without regard to the reactions outside the group. *)
Definition circular {R} (reactants products : R -> list nat) (prec : list nat) (p : path R) : Prop :=
  exists group, NoDup group /\ 2 <= length group /\ (forall r, In r group -> In r (p_rxns p))
  /\ mutually_dependent reactants products prec (fun _ => True) group.

(* The multiplicity-weighted sum of the j-th coefficients. *)
Definition weighted (ms : list Q) (rows : list (list Q)) (j : nat) : Q :=
  Qsum (map (fun mr => fst mr * nth j (snd mr) 0)%Q (combine ms rows)).
