(* Vocabulary for the properties of reaction sets. *)
From Verif Require Import Prelude NumQ RxnSetModel.

(* The same reaction in another environment of chemical potentials. *)
Definition with_mu (m : option (list (nat * Q))) (r : srxn) : srxn :=
  {| x_entries := x_entries r; x_coeffs := x_coeffs r; x_data := x_data r; x_mu := m |}.

(* The three dictionaries describe the same rectangular arrays: equal keys, each
   once, as many rows in each, and positions inside the entry list. *)
Definition well_formed (s : rset) : Prop :=
  NoDup (map fst (r_indices s))
  /\ map fst (r_coeffs s) = map fst (r_indices s)
  /\ map fst (r_data s) = map fst (r_indices s)
  /\ forall n is cs ds, In (n, is) (r_indices s) -> In (n, cs) (r_coeffs s) -> In (n, ds) (r_data s) ->
       length cs = length is /\ length ds = length is
       /\ (forall idx, In idx is -> length idx = n /\ forall i, In i idx -> i < length (r_entries s))
       /\ (forall c, In c cs -> length c = n).

(* What sorted(set(l), key=composition) guarantees. *)
Definition arranges (arrange : list sentry -> list sentry) : Prop :=
  forall l, NoDup (arrange l) /\ forall e, In e (arrange l) <-> In e l.

(* Number of species of a reaction. *)
Definition of_size (n : nat) (r : srxn) : bool := Nat.eqb (length (x_entries r)) n.

(* e takes part in r with coefficient c. *)
Definition takes_part (r : srxn) (e : sentry) (c : Q) : Prop := In (e, c) (combine (x_entries r) (x_coeffs r)).

(* Every reactant of r has one of the formulas; some product of r has the formula. *)
Definition only_reactants (fs : list nat) (r : srxn) : Prop :=
  forall e c, takes_part r e c -> (c < 0)%Q -> In (form e) fs.
Definition forms_product (f : nat) (r : srxn) : Prop :=
  exists e c, takes_part r e c /\ (0 < c)%Q /\ form e = f.

(* Out is what remains of l after dropping the items outside P (order and
   multiplicity kept). *)
Inductive selects {A} (P : A -> Prop) : list A -> list A -> Prop :=
| selects_nil : selects P [] []
| selects_in x l out : P x -> selects P l out -> selects P (x :: l) (x :: out)
| selects_out x l out : ~ P x -> selects P l out -> selects P (x :: l) out.

(* --- duplicates --- *)

(* l lists the entries that r and r' have in common, each with its coefficient in r
   and in r'. *)
Definition aligned (r r' : srxn) (l : list (sentry * Q * Q)) : Prop :=
  Permutation (map (fun t => (fst (fst t), snd (fst t))) l) (combine (x_entries r) (x_coeffs r))
  /\ Permutation (map (fun t => (fst (fst t), snd t)) l) (combine (x_entries r') (x_coeffs r')).

(* r' is a positive multiple of r: the same entries, all coefficients k times larger. *)
Definition multiples (r r' : srxn) : Prop :=
  exists k l, (0 < k)%Q /\ aligned r r' l /\ forall e x y, In (e, x, y) l -> (y == k * x)%Q.

(* The ratios of the coefficients agree with the size of one of them up to the
   tolerance of np.isclose. *)
Definition nearly_multiples (r r' : srxn) : Prop :=
  exists l e0 x0 y0, aligned r r' l /\ In (e0, x0, y0) l
  /\ forall e x y, In (e, x, y) l -> (Qabs (Qabs (x0 / y0) - x / y) <= (1 # 100000000) + (1 # 100000) * Qabs (x / y))%Q.

(* The tolerance never confuses two reactions of the list. *)
Definition sharp (rs : list srxn) : Prop := forall r r', In r rs -> In r' rs -> nearly_multiples r r' -> multiples r r'.

(* No species is listed twice or with coefficient zero, and there is a coefficient
   for each. *)
Definition plain (r : srxn) : Prop :=
  NoDup (x_entries r) /\ length (x_coeffs r) = length (x_entries r) /\ forall c, In c (x_coeffs r) -> ~ (c == 0)%Q.

(* The same entries and coefficients. *)
Definition same_rxn (a b : srxn) : Prop := x_entries a = x_entries b /\ Forall2 Qeq (x_coeffs a) (x_coeffs b).

(* Both calls return related values, or both raise. *)
Definition agree {A B} (P : A -> B -> Prop) (x : result A) (y : result B) : Prop :=
  match x, y with Ok a, Ok b => P a b | Err _, Err _ => True | _, _ => False end.

(* The same reaction with every entry replaced by its version at another temperature. *)
Definition warmed (warm : sentry -> sentry) (r : srxn) : srxn :=
  {| x_entries := map warm (x_entries r); x_coeffs := x_coeffs r; x_data := x_data r; x_mu := x_mu r |}.
