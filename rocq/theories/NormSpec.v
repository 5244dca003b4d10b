(* Vocabulary for normalised texts (C155). *)
From Verif Require Import Prelude NumQ ReactionModel StrModel StrSpec.
Open Scope nat_scope.

(* The amounts of r are whole multiples of q: zs, negative for reactants. *)
Definition in_units (C : chem) (r : brxn) (q : Q) (zs : list Z) : Prop := Forall2 (fun ca z => (snd ca == inject_Z z * q)%Q) (amounts C r) zs.
(* No whole number but one divides them all. *)
Definition lowest (zs : list Z) : Prop := forall d, (0 < d)%Z -> (forall z, In z zs -> (d | z)%Z) -> d = 1%Z.
(* Amounts of r' are s times those of r, of the same compositions. *)
Definition multiple (C : chem) (s : Q) (r r' : brxn) : Prop :=
  Forall2 (fun ca ca' => fst ca = fst ca' /\ (snd ca' == s * snd ca)%Q) (amounts C r) (amounts C r').
(* A whole number before a formula; one is not written. *)
Definition counted (z : Z) (f t : text) : Prop :=
  (z = 1%Z -> t = f) /\ (z <> 1%Z -> exists n v, t = n ++ (Ascii.ascii_of_nat 32) :: f /\ tidy n /\ py_float n = Ok v /\ (v == inject_Z z)%Q).
