(* Vocabulary for the properties of entries (C54-C57, C65). *)
From Verif Require Import Prelude NumQ SumQ ReactionModel ReactionSpec GibbsModel.
Open Scope nat_scope.

(* The elemental table has exactly the rows 300, 400, ..., 2000 and lists val z e for
   every element e of els in the row z. *)
Record tabulates (table : list (Z * list (nat * Q))) (els : list nat) (val : Z -> nat -> Q) : Prop := {
  tb_rows : NoDup (map fst table);
  tb_keys : forall z, In z (map fst table) <-> exists k, (3 <= k <= 20)%Z /\ z = (100 * k)%Z;
  tb_cols : forall z g, In (z, g) table -> NoDup (map fst g);
  tb_vals : forall z g e, In (z, g) table -> In e els -> In (e, val z e) g
}.

(* The temperature is a multiple of one hundred. *)
Definition on_grid (t : pynum) : Prop := exists k : Z, (pyval t == inject_Z (100 * k))%Q.
Definition is_int (t : pynum) : Prop := match t with PInt _ => True | PFloat _ => False end.
Definition in_range (t : pynum) : Prop := (300 <= pyval t <= 2000)%Q.

(* The point of a straight line through (x1, y1) and (x2, y2). *)
Definition on_line (x1 y1 x2 y2 x : Q) : Q := (y1 * ((x2 - x) / (x2 - x1)) + y2 * ((x - x1) / (x2 - x1)))%Q.

(* Sum of amount times value over a list of (element, amount). *)
Definition weighted (val : nat -> Q) (items : list (nat * Q)) : Q := sumQ (fun ea => snd ea * val (fst ea))%Q items.

(* The abscissae of a list of points are different numbers. *)
Definition distinct_abscissae (pts : list (Q * Q)) : Prop := ForallOrdPairs (fun a b => ~ (fst a == fst b)%Q) pts.

(* The reduced mass of equation 6 of Bartel et al., over ordered pairs of different
   elements (each unordered pair counts twice). *)
Definition reduced_mass_spec (mass amount : nat -> Q) (els : list nat) : Q :=
  (sumQ (fun i => sumQ (fun j => if Nat.eqb i j then 0 else (amount i + amount j) * (mass i * mass j / (mass i + mass j))) els) els
   / (2 * inject_Z (Z.of_nat (length els) - 1) * sumQ amount els))%Q.

(* The text of a number: int and float texts differ, and texts of the same kind are
   equal when the numbers are. *)
Definition same_text (a b : pynum) : Prop :=
  match a, b with PInt x, PInt y => x = y | PFloat p, PFloat q => (p == q)%Q | _, _ => False end.
Definition same_exp_hash (a b : xentry) : Prop :=
  fst (exp_hash_key a) = fst (exp_hash_key b) /\ same_text (snd (exp_hash_key a)) (snd (exp_hash_key b)).
(* Equal tuples of composition, energy, id and temperature (numbers hash by value). *)
Definition same_gibbs_hash ln C (a b : gentry) : Prop :=
  let '(c, e, i, t) := gibbs_hash_key ln C a in let '(c', e', i', t') := gibbs_hash_key ln C b in
  c = c' /\ (e == e')%Q /\ i = i' /\ (t == t')%Q.

(* The same carbon dioxide corrections, made for temperature t. *)
Definition co2_at (t : pynum) (l : list (Q * Q)) : list adj := map (fun np => ACO2 (fst np) (pyval t) (snd np)) l.

(* The entry comes from the constructor. *)
Definition built ln C (e : gentry) : Prop := exists mass table default_id c dhf v t adjs id, gibbs_init ln C mass table default_id c dhf v t adjs id = Ok e.

(* The Gibbs energy of formation of Bartel et al. (2018), equations 2 and 4, for a compound
   with the given amounts: enthalpy per atom dhf, volume per atom v, temperature t and
   elemental energies g. *)
Definition bartel (ln : Q -> Q) (mass amount g : nat -> Q) (els : list nat) (dhf v t : Q) : Q :=
  let n := sumQ amount els in
  let m := reduced_mass_spec mass amount els in
  (n * dhf + n * (((-(248 # 1000000)) * ln v - (894 # 10000000) * (m / v)) * t + (181 # 1000) * ln t - (882 # 1000))
   - sumQ (fun e => amount e * g e) els)%Q.
(* The elemental energy at a temperature between the rows 100 k and 100 (k + 1). *)
Definition elemental (val : Z -> nat -> Q) (k : Z) (t : Q) (e : nat) : Q :=
  on_line (inject_Z (100 * k)) (val (100 * k)%Z e) (inject_Z (100 * (k + 1))) (val (100 * (k + 1))%Z e) t.

(* Two numbers that differ by at most 1e-9 of the larger one. *)
Definition within_billionth (a b : Q) : Prop := (Qabs (a - b) <= (1 # 1000000000) * Qabs a \/ Qabs (a - b) <= (1 # 1000000000) * Qabs b)%Q.
