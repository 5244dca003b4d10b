(* Vocabulary for the properties of reactions (C07-C16, C64). *)
From Verif Require Import Prelude NumQ SumQ UtilsSpec ReactionModel.
Open Scope nat_scope.

(* The table of compositions is consistent: amounts are positive exactly on the
   listed elements, and a composition is [fac] copies of its reduced composition. *)
Record wf_chem (C : chem) : Prop := {
  wf_nodup : forall c, NoDup (elems C c);
  wf_pos : forall c e, In e (elems C c) -> (0 < amt C c e)%Q;
  wf_zero : forall c e, ~ In e (elems C c) -> (amt C c e == 0)%Q;
  wf_red_red : forall c, red C (red C c) = red C c;
  wf_fac_pos : forall c, (0 < fac C c)%Q;
  wf_fac : forall c e, (amt C c e == fac C c * amt C (red C c) e)%Q;
  wf_red_elems : forall c, elems C (red C c) = elems C c
}.

(* Net change of element e over a list of (composition, coefficient). *)
Definition net (C : chem) (l : list (nat * Q)) (e : nat) : Q :=
  sumQ (fun ck => amt C (fst ck) e * snd ck)%Q l.

(* Amount of element e on the reactant / product side. *)
Definition consumed (C : chem) (l : list (nat * Q)) (e : nat) : Q :=
  sumQ (fun ck => if Qlt_bool (snd ck) 0 then (amt C (fst ck) e * - snd ck)%Q else 0%Q) l.
Definition produced (C : chem) (l : list (nat * Q)) (e : nat) : Q :=
  sumQ (fun ck => if Qlt_bool 0 (snd ck) then (amt C (fst ck) e * snd ck)%Q else 0%Q) l.

(* The species of a reaction with their coefficients. *)
Definition species (r : brxn) : list (nat * Q) := combine (comps r) (coeffs r).

(* Elements are conserved exactly. *)
Definition conserving (C : chem) (r : brxn) : Prop := forall e, (net C (species r) e == 0)%Q.

(* Number of coefficients with the wrong sign or too small: the first [nr] must be
   at most -1e-6, the others at least 1e-6. *)
Definition wrong_signs (nr : nat) (ks : list Q) : nat :=
  length (filter (fun ik => if Nat.ltb (fst ik) nr then Qlt_bool (-(1 # 1000000)) (snd ik)
                            else Qlt_bool (snd ik) (1 # 1000000))
                 (combine (seq 0 (length ks)) ks)).

(* Reactions as the constructors leave them, one coefficient per species. *)
Definition built (C : chem) (r : rxn) : Prop :=
  match r with
  | RBasic b => exists cs ks fl n, length cs = length ks /\ b = basic_init C cs ks fl n
  | RComputed k => exists es ks n, length es = length ks /\ k = computed_init C es ks n
  | ROpen o => exists es ks mu n, length es = length ks /\ o = open_init C es ks mu n
  end.

(* v is the lowest energy per reduced formula unit among the entries of comp. *)
Definition lowest (C : chem) (energy : entry -> Q) (es : list entry) (comp : nat) (v : Q) : Prop :=
  (exists e, In e es /\ red C (e_comp e) = comp /\ (v == energy e / fac C (e_comp e))%Q)
  /\ forall e, In e es -> red C (e_comp e) = comp -> (v <= energy e / fac C (e_comp e))%Q.

(* What the open elements contribute to one formula unit of c: the chemical potential
   times the amount of each open element, nothing for a pure open element. *)
Definition open_part (C : chem) (mu : list (nat * Q)) (c : nat) : Q :=
  let full := sumQ (fun em => amt C c (fst em) * snd em)%Q mu in
  match elems C c with
  | [e] => if in_dec Nat.eq_dec e (map fst mu) then 0%Q else full
  | _ => full
  end.

(* Total number of atoms of element e of the list els in a composition. *)
Definition atoms (C : chem) (els : list nat) (c : nat) : Q := sumQ (amt C c) els.

(* The sets of species whose coefficient is fixed to one: non-empty sets of
   products, or of reactants, up to the number of degrees of freedom. *)
Definition tried (nr np rank : nat) (c : list nat) : Prop :=
  (subseq c (seq nr np) \/ subseq c (seq 0 nr)) /\ 1 <= length c <= Nat.max 1 (nr + np - rank).

(* r' is r with every coefficient multiplied by s. *)
Definition rescaled (s : Q) (r r' : rxn) : Prop :=
  comps (base_of r') = comps (base_of r)
  /\ coeffs (base_of r') = map (fun q => q * s)%Q (coeffs (base_of r))
  /\ reactants (base_of r') = reactants (base_of r)
  /\ products (base_of r') = products (base_of r)
  /\ entries_of r' = entries_of r.

(* Two results are equal numbers (or the same exception). *)
Definition same_value (a b : result Q) : Prop :=
  match a, b with Ok x, Ok y => (x == y)%Q | Err x, Err y => x = y | _, _ => False end.

(* A reaction as the constructor leaves it, with distinct species and no zero
   coefficient. *)
Definition clean (C : chem) (r : brxn) : Prop :=
  exists cs ks fl n, r = basic_init C cs ks fl n /\ NoDup cs /\ length cs = length ks
  /\ forall k, In k ks -> ~ (k == 0)%Q.

(* No coefficient of r1 is within the tolerance of a different coefficient of r2. *)
Definition apart (r1 r2 : brxn) : Prop :=
  forall a b, In a (coeffs r1) -> In b (coeffs r2) -> isclose a b = true -> (a == b)%Q.

(* r2 has the same species as r1, with all coefficients multiplied by s. *)
Definition proportional (s : Q) (r1 r2 : brxn) : Prop :=
  Permutation (species r2) (map (fun ck => (fst ck, snd ck * s)%Q) (species r1)).
