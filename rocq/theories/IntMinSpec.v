(* What is asked of looking for reactions between the intermediates with an enumerator that minimises. *)
From Verif Require Import Prelude NumQ SumQ EnumSpec MinSpec ReactionModel ReactionSpec SolveJobSpec IntSpec.
Open Scope nat_scope.

Section Spec.
Variable C : chem.
Variable ents : list entry.
Variable rxns : list rxn.
Variable net : rxn.
Context {P : Type}.
Variable build : list nat -> result P.
Variable kinks : P -> nat -> nat -> result (list (list nat * list nat)).

(* The element el occurs in the phase number i. *)
Definition occurs (i el : nat) : Prop := exists e, nth_error ents i = Some e /\ In el (ReactionModel.elems C (e_comp e)).
(* The energy per atom of the phase number i. *)
Definition atom_energy (i : nat) : Q := match nth_error ents i with Some e => (e_energy e / natoms C (e_comp e))%Q | None => 0%Q end.

(* c is one or two intermediates, and s lists the intermediates made of their elements. *)
Definition system (c s : list nat) : Prop :=
  few c /\ (forall i, In i c -> intermediate C ents rxns net i)
  /\ NoDup s /\ forall i, In i s <-> intermediate C ents rxns net i /\ forall el, occurs i el -> exists j, In j c /\ occurs j el.
(* c has two to nine elements. *)
Definition right_size (c : list nat) : Prop :=
  exists els, NoDup els /\ 2 <= length els <= 9 /\ forall el, In el els <-> exists j, In j c /\ occurs j el.

(* The phase e of s with the formula f is as stable as any; or more stable than any other. *)
Definition stable (s : list nat) (f e : nat) : Prop :=
  formula_at C ents e = f /\ In e s /\ forall x, In x s -> formula_at C ents x = f -> (atom_energy e <= atom_energy x)%Q.
Definition most_stable_only (s : list nat) (f e : nat) : Prop :=
  formula_at C ents e = f /\ In e s /\ forall x, In x s -> formula_at C ents x = f -> x = e \/ (atom_energy e < atom_energy x)%Q.

(* r to p is at a kink of the interface of intermediates, and makes something that the net reaction makes. *)
Definition kink_between (r p : list nat) : Prop :=
  (exists c s pd a b ks kink, system c s /\ right_size c /\ build s = Ok pd /\ ends c a b /\ kinks pd a b = Ok ks /\ In kink ks
     /\ Forall2 (stable s) (fst kink) r /\ Forall2 (stable s) (snd kink) p)
  /\ exists t, In t p /\ target net t.
(* The same, in whatever order the phases are listed, and with no other phase as stable. *)
Definition sure_kink (r p : list nat) : Prop :=
  (exists c kink, few c /\ (forall i, In i c -> intermediate C ents rxns net i) /\ right_size c
     /\ forall s, system c s -> Forall2 (most_stable_only s) (fst kink) r /\ Forall2 (most_stable_only s) (snd kink) p
        /\ exists pd, build s = Ok pd /\ forall a b, ends c a b -> exists ks, kinks pd a b = Ok ks /\ In kink ks)
  /\ exists t, In t p /\ target net t.

(* What is assumed of pymatgen: the diagrams can be built, and a reaction at a kink names formulas
   of the phases and has two sides. *)
Definition kinks_make_sense : Prop := forall c s, system c s -> exists pd, build s = Ok pd /\ forall a b, In a c -> In b c -> exists ks, kinks pd a b = Ok ks
  /\ forall kink, In kink ks -> fst kink <> [] /\ snd kink <> [] /\ forall f, In f (fst kink) \/ In f (snd kink) -> exists e, In e s /\ formula_at C ents e = f.
End Spec.
