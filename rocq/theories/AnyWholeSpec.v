(* What is asked of a whole flow with every enumerator for closed systems. *)
From Verif Require Import Prelude NumQ SumQ ReactionModel MinSpec MinJoinSpec IntSpec.
Open Scope nat_scope.

(* The diagram of the phases s, and the kinks of the interface of two phases: only compositions and energies count. *)
Definition diagram_for {P} (phase_diagram : list (nat * Q) -> result P) (of : nat -> entry) (s : list nat) : result P :=
  phase_diagram (map (fun i => (e_comp (of i), e_energy (of i))) s).
Definition kinks_for {P} (interface : P -> nat -> nat -> result (list (list nat * list nat))) (of : nat -> entry) (pd : P) (a b : nat) : result (list (list nat * list nat)) :=
  interface pd (e_comp (of a)) (e_comp (of b)).

Section Spec.
Variable C : chem.
Variable ent : nat -> entry.
Context {P : Type}.
Variable phase_diagram : list (nat * Q) -> result P.
Variable interface : P -> nat -> nat -> result (list (list nat * list nat)).
Variable mid : nat -> Prop.
Variable ts : list nat.
Let els (u : nat) : list nat := ReactionModel.elems C (e_comp (ent u)).
Let epa (u : nat) : Q := (e_energy (ent u) / natoms C (e_comp (ent u)))%Q.

(* c is one or two of the phases mid, and s lists those of them that are made of the elements of c. *)
Definition phases_around (c s : list nat) : Prop :=
  few c /\ (forall u, In u c -> mid u) /\ NoDup s /\ forall u, In u s <-> mid u /\ forall el, In el (els u) -> exists w, In w c /\ In el (els w).
(* c has two to nine elements. *)
Definition elements_fit (c : list nat) : Prop :=
  exists l, NoDup l /\ 2 <= length l <= 9 /\ forall el, In el l <-> exists w, In w c /\ In el (els w).

(* r to p is at a kink of an interface of phases mid, and makes a target. *)
Definition could_meet (r p : list nat) : Prop :=
  (exists c s pd a b ks kink, phases_around c s /\ elements_fit c /\ diagram_for phase_diagram ent s = Ok pd /\ ends c a b /\ kinks_for interface ent pd a b = Ok ks /\ In kink ks
     /\ Forall2 (stable_phase C ent epa s) (fst kink) r /\ Forall2 (stable_phase C ent epa s) (snd kink) p)
  /\ exists t, In t p /\ In t ts.
(* The same, in whatever order the phases are listed, and with no other phase as stable. *)
Definition sure_to_meet (r p : list nat) : Prop :=
  (forall u, In u (r ++ p) -> mid u)
  /\ (exists c kink, few c /\ (forall u, In u c -> mid u) /\ elements_fit c
     /\ forall s, phases_around c s -> Forall2 (only_stable_phase C ent epa s) (fst kink) r /\ Forall2 (only_stable_phase C ent epa s) (snd kink) p
        /\ exists pd, diagram_for phase_diagram ent s = Ok pd /\ forall a b, ends c a b -> exists ks, kinks_for interface ent pd a b = Ok ks /\ In kink ks)
  /\ exists t, In t p /\ In t ts.
(* What is assumed of pymatgen for these phases. *)
Definition interfaces_work : Prop := forall c s, phases_around c s -> exists pd, diagram_for phase_diagram ent s = Ok pd /\ forall a b, In a c -> In b c -> exists ks, kinks_for interface ent pd a b = Ok ks
  /\ forall kink : list nat * list nat, In kink ks -> fst kink <> [] /\ snd kink <> [] /\ forall f, In f (fst kink) \/ In f (snd kink) -> exists e, In e s /\ red C (e_comp (ent e)) = f.
End Spec.
