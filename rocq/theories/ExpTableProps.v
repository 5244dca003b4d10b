(* C136: The experimental tables serve every temperature of their range, change smoothly and
   agree with each other. *)
From Coq Require Import String.
From Verif Require Import Prelude NumQ ReactionModel GibbsModel NistTableModel FreedTableModel ExpTableModel ExpTableSpec ExpTableCheck.
Open Scope string_scope.
Open Scope list_scope.
Open Scope nat_scope.

(* A formula of a table has an entry at every temperature from 300 K to its last row, and
   nowhere else. *)
Theorem C136_range : forall tab, tab = nist_table \/ tab = freed_table ->
  forall (C : chem) (deprecated : nat -> bool) (c : nat) (s : string) (n : Z) (vs : list Z) (t : pynum) (adjs : list adj),
  deprecated (red C c) = false -> nth_error tab (red C c) = Some (s, n, vs) ->
  ((300 <= pyval t <= last_row vs)%Q -> exists e, exp_init C (table_refs tab) deprecated c t adjs = Ok e) /\
  (~ (300 <= pyval t <= last_row vs)%Q -> exp_init C (table_refs tab) deprecated c t adjs = Err ValueError).
Proof. intros tab [-> | ->] C deprecated c s n vs t adjs; [exact (table_range _ _ _ _ _ _ _ _ _ _ nist_rows)|exact (table_range _ _ _ _ _ _ _ _ _ _ freed_rows)]. Qed.
Print Assumptions C136_range.

(* The energy changes by at most 2 meV for each atom and kelvin. Missing: the formulas of the two
   lists of jumps, see C136_exactly. *)
Theorem C136_smooth_partial : forall tab jumpy, tab = nist_table /\ jumpy = nist_jumps \/ tab = freed_table /\ jumpy = freed_jumps ->
  forall (C : chem) (deprecated : nat -> bool) (c : nat) (s : string) (n : Z) (vs : list Z) (t t' : pynum) (adjs adjs' : list adj) (e e' : xentry),
  deprecated (red C c) = false -> nth_error tab (red C c) = Some (s, n, vs) -> ~ In s jumpy ->
  exp_init C (table_refs tab) deprecated c t adjs = Ok e -> exp_init C (table_refs tab) deprecated c t' adjs' = Ok e' ->
  (Qabs (xe_base e' - xe_base e) <= (2 # 1000) * inject_Z n * Qabs (pyval t' - pyval t))%Q.
Proof. intros tab jumpy [(-> & ->)|(-> & ->)] C deprecated c s n vs t t' adjs adjs' e e'; [exact (table_smooth _ _ _ _ _ _ _ _ _ _ _ _ _ _ nist_rows)|exact (table_smooth _ _ _ _ _ _ _ _ _ _ _ _ _ _ freed_rows)]. Qed.
Print Assumptions C136_smooth_partial.

(* The lists of jumps hold just the formulas of the tables with a jump of more than 0.2 eV for
   each atom between two neighbouring rows. *)
Theorem C136_exactly : forall tab jumpy, tab = nist_table /\ jumpy = nist_jumps \/ tab = freed_table /\ jumpy = freed_jumps ->
  forall (f : nat) (s : string) (n : Z) (vs : list Z), nth_error tab f = Some (s, n, vs) -> vs <> [] /\ (jumps n vs <-> In s jumpy).
Proof. intros tab jumpy [(-> & ->)|(-> & ->)] f s n vs; [exact (row_known _ _ _ _ _ _ nist_rows)|exact (row_known _ _ _ _ _ _ freed_rows)]. Qed.
Print Assumptions C136_exactly.

(* In the FREED table the energy of Bi2S3 rises by 17 eV between 1800 K and 1900 K. *)
Theorem C136_jump_refuted : exists C c vs e e', nth_error freed_table (red C c) = Some ("Bi2S3", 5%Z, vs) /\
  exp_init C (table_refs freed_table) (fun _ => false) c (PInt 1800) [] = Ok e /\ exp_init C (table_refs freed_table) (fun _ => false) c (PInt 1900) [] = Ok e' /\ (17 < xe_base e' - xe_base e)%Q.
Proof. exact bismuth_jumps. Qed.
Print Assumptions C136_jump_refuted.

(* A formula of both tables has energies within 0.2 eV for each atom of each other, at every
   temperature. Missing: the formulas that are disputed, which are just those that differ by more
   in a row. *)
Theorem C136_agree_partial : forall (C C' : chem) (dep dep' : nat -> bool) (c c' : nat) (s : string) (n n' : Z) (vs vs' : list Z) (t : pynum) (adjs adjs' : list adj) (e e' : xentry),
  nth_error nist_table (red C c) = Some (s, n, vs) -> nth_error freed_table (red C' c') = Some (s, n', vs') ->
  n = n' /\ (differs n vs vs' <-> In s disputed) /\
  (~ In s disputed -> dep (red C c) = false -> dep' (red C' c') = false ->
   exp_init C (table_refs nist_table) dep c t adjs = Ok e -> exp_init C' (table_refs freed_table) dep' c' t adjs' = Ok e' ->
   (Qabs (xe_base e - xe_base e') <= (2 # 10) * inject_Z n)%Q).
Proof. intros C C' dep dep' c c' s n n' vs vs' t adjs adjs' e e'. exact (tables_near C C' dep dep' c c' s n vs n' vs' t adjs adjs' e e'). Qed.
Print Assumptions C136_agree_partial.

(* At 2000 K the tables put SrO more than 2.7 eV apart. *)
Theorem C136_agree_refuted : exists C c c' vs vs' e e', nth_error nist_table (red C c) = Some ("SrO", 2%Z, vs) /\ nth_error freed_table (red C c') = Some ("SrO", 2%Z, vs') /\
  exp_init C (table_refs nist_table) (fun _ => false) c (PInt 2000) [] = Ok e /\ exp_init C (table_refs freed_table) (fun _ => false) c' (PInt 2000) [] = Ok e' /\ ((27 # 10) < xe_base e' - xe_base e)%Q.
Proof. exact strontium_disputed. Qed.
Print Assumptions C136_agree_refuted.

(* Carbon dioxide at 350 K and 450 K meets the hypotheses, in both tables. *)
Example C136_demo : exists vs vs' e e' e'', nth_error nist_table 163 = Some ("CO2", 3%Z, vs) /\ nth_error freed_table 251 = Some ("CO2", 3%Z, vs') /\ ~ In "CO2" nist_jumps /\ ~ In "CO2" disputed /\
  exp_init (by_place 1 2) (table_refs nist_table) (fun _ => false) 163 (PInt 350) [] = Ok e /\ exp_init (by_place 1 2) (table_refs nist_table) (fun _ => false) 163 (PInt 450) [] = Ok e' /\ exp_init (by_place 1 2) (table_refs freed_table) (fun _ => false) 251 (PInt 350) [] = Ok e'' /\
  ~ (xe_base e == xe_base e')%Q /\ ~ (xe_base e == xe_base e'')%Q.
Proof. exact carbon_dioxide. Qed.
