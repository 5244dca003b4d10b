(* Vocabulary for C98. *)
From Verif Require Import Prelude NumQ SumQ DiagModel.
Open Scope nat_scope.

(* Atomic fractions of compositions with the given elements. *)
Record fractions (els : nat -> list nat) (frac : nat -> nat -> Q) (formula : nat -> nat) (entries : list nat) : Prop := {
  fr_nonneg : forall e el, In e entries -> (0 <= frac e el)%Q;
  fr_absent : forall e el, In e entries -> ~ In el (els e) -> (frac e el == 0)%Q;
  fr_alone : forall e el, In e entries -> els e = [el] -> (frac e el == 1)%Q;
  fr_formula : forall e x, In e entries -> In x entries -> formula e = formula x -> els e = els x /\ forall el, (frac e el == frac x el)%Q;
  fr_element : forall e x el, In e entries -> In x entries -> els e = [el] -> els x = [el] -> formula e = formula x }.

(* The chemical potential of the atoms of entry e at the point p. *)
Definition level (frac : nat -> nat -> Q) (elements : list nat) (e : nat) (p : list Q) : Q :=
  sumQ (fun xm => (frac e (fst xm) * snd xm)%Q) (combine elements p).

(* What scipy's HalfspaceIntersection returns: points within all half spaces, each with
   half spaces on whose border it lies. *)
Definition side (h : halfspace) (p : list Q) : Q := (sumQ (fun ax => fst ax * snd ax) (combine (fst h) p) + snd h)%Q.
Definition intersection (dim : nat) (hs : list halfspace) (vs : list (list Q * list nat)) : Prop :=
  forall p facet, In (p, facet) vs -> length p = dim
  /\ (forall h, In h hs -> (side h p <= 0)%Q)
  /\ forall v, In v facet -> exists h, nth_error hs v = Some h /\ (side h p == 0)%Q.
(* every border on which a point lies is named *)
Definition all_named (hs : list halfspace) (vs : list (list Q * list nat)) : Prop :=
  forall p facet v h, In (p, facet) vs -> nth_error hs v = Some h -> (side h p == 0)%Q -> In v facet.

(* A ground state of its formula. *)
Definition ground_state (formula : nat -> nat) (epa : nat -> Q) (entries : list nat) (e : nat) : Prop :=
  In e entries /\ forall x, In x entries -> formula x = formula e -> (epa e <= epa x)%Q.

(* Ground states of the elements. *)
Definition references (els : nat -> list nat) (formula : nat -> nat) (epa : nat -> Q) (entries : list nat) (ref : nat -> nat) : Prop :=
  forall e el, In e entries -> In el (els e) -> ground_state formula epa entries (ref el) /\ els (ref el) = [el].
Definition has_references (els : nat -> list nat) (entries : list nat) : Prop :=
  forall e el, In e entries -> In el (els e) -> exists x, In x entries /\ els x = [el].
(* A mixture of entries with the composition of e: weights per atom. *)
Definition mixture (frac : nat -> nat -> Q) (entries : list nat) (e : nat) (ws : list (nat * Q)) : Prop :=
  (forall x w, In (x, w) ws -> In x entries /\ (0 <= w)%Q) /\ (sumQ snd ws == 1)%Q /\ forall el, (frac e el == sumQ (fun xw => snd xw * frac (fst xw) el) ws)%Q.
