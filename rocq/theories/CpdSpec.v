(* Vocabulary for C87-C89. *)
From Verif Require Import Prelude NumQ CpdModel.
Open Scope nat_scope.

(* Reactants and products that count: in an open reaction, those with other elements. *)
Definition counted (r : creaction) (e : nat) : Prop := match c_grand r with Some g => g e = true | None => True end.
Definition consumed (r : creaction) (e : nat) : Prop := (exists c, In (e, c) (c_entries r) /\ (c < 0)%Q) /\ counted r e.
Definition formed (r : creaction) (e : nat) : Prop := (exists c, In (e, c) (c_entries r) /\ (0 < c)%Q) /\ counted r e.
(* The interfaces of a reaction, each once: every reactant with every product, and every
   two products in one of the two orders. *)
Record interfaces (r : creaction) (l : list (nat * nat)) : Prop := {
  if_once : NoDup l;
  if_sound : forall a b, In (a, b) l -> formed r b /\ (consumed r a \/ (formed r a /\ a <> b));
  if_mixed : forall a b, consumed r a -> formed r b -> In (a, b) l;
  if_products : forall a b, formed r a -> formed r b -> a <> b ->
    (In (a, b) l /\ ~ In (b, a) l) \/ (In (b, a) l /\ ~ In (a, b) l) }.
(* The aggregate of some values. *)
Definition total (l : list Q) (v : Q) : Prop := (v == Qsum l)%Q.
Definition greatest (l : list Q) (v : Q) : Prop := In v l /\ forall x, In x l -> (x <= v)%Q.
Definition average (l : list Q) (v : Q) : Prop := l <> [] /\ (v * inject_Z (Z.of_nat (length l)) == Qsum l)%Q.
(* The least distance between two sets of points. *)
Definition least_distance {P} (dist : P -> P -> Q) (a b : list P) (v : Q) : Prop :=
  (exists p q, In p a /\ In q b /\ v = dist p q) /\ forall p q, In p a -> In q b -> (v <= dist p q)%Q.
