(* Model of entries/gibbs.py, entries/experimental.py, entries/interpolated.py and
   entries/corrections.py. Elements and compositions are numbers, described by a table
   [chem] as for the reactions. *)
From Coq Require Import Qround.
From Verif Require Import Prelude NumQ UtilsModel ReactionModel SolverModel.
Open Scope nat_scope.

(* A Python number used as a temperature. str() of an int is its decimal text, str() of
   a float always has a point, an exponent or letters. *)
Inductive pynum := PInt (z : Z) | PFloat (q : Q).
Definition pyval (t : pynum) : Q := match t with PInt z => inject_Z z | PFloat q => q end.

(* t % 100 > 0 *)
Definition pymod100 (q : Q) : Q := (q - 100 * inject_Z (Qfloor (q / 100)))%Q.
Definition off_grid (t : pynum) : bool := Qlt_bool 0 (pymod100 (pyval t)).

(* scipy.interpolate.interp1d(xs, ys)(x), kind linear: points sorted by abscissa, values
   outside raise ValueError; the first segment whose right end is not below x. *)
Fixpoint segment (x : Q) (pts : list (Q * Q)) : result Q :=
  match pts with
  | (x1, y1) :: (((x2, y2) :: rest) as tl) =>
      if Qle_bool x x2 then Ok ((y2 - y1) / (x2 - x1) * (x - x1) + y1)%Q else segment x tl
  | _ => Err ValueError
  end.
Definition interp1d (pts : list (Q * Q)) (x : Q) : result Q :=
  match sort_by pts with
  | [] => Err ValueError
  | (x0, y0) :: rest => if Qlt_bool x x0 then Err ValueError else segment x ((x0, y0) :: rest)
  end.

(* --- entries/corrections.py and the ConstantEnergyAdjustment of pymatgen --- *)
Inductive adj_name := Sisso | Named (n : nat).
Inductive adj :=
| AConst (name : adj_name) (value : Q)           (* ConstantEnergyAdjustment *)
| ACarbonate (num corr : Q)                      (* corrections.py:13-46 *)
| ACO2 (n temp pco2 : Q).                        (* corrections.py:49-91 *)

Definition is_sisso (a : adj) : bool := match a with AConst Sisso _ => true | _ => false end.

Section Gibbs.
Variable ln : Q -> Q.                            (* np.log and math.log: any function *)

(* corrections.py:72-81 get_dmu; value of an adjustment (adj_per_atom * n_atoms) *)
Definition get_dmu (temp pco2 : Q) : Q := ((1 # 3) * (8617 # 100000000) * temp * ln pco2)%Q.
Definition adj_value (a : adj) : Q :=
  match a with
  | AConst _ v => v
  | ACarbonate num corr => (corr * num)%Q
  | ACO2 n temp pco2 => (get_dmu temp pco2 * n)%Q
  end.
(* ComputedEntry.correction *)
Definition correction (l : list adj) : Q := Qsum (map adj_value l).

Variable C : chem.
Variable mass : nat -> Q.                        (* Composition(el).weight *)
Variable table : list (Z * list (nat * Q)).      (* G_ELEMS; the keys are texts of integers *)

(* comp.get_el_amt_dict() *)
Definition el_amts (c : nat) : list (nat * Q) := map (fun e => (e, amt C c e)) (elems C c).
(* comp.is_element *)
Definition is_element (c : nat) : bool := Nat.eqb (length (elems C c)) 1.

(* gibbs.py:229-235, one pair; masses are positive, so the division does not fail *)
Definition pair_term (pair : list (nat * Q)) : Q :=
  match pair with
  | [(i, ai); (j, aj)] => ((ai + aj) * (mass i * mass j) / (mass i + mass j))%Q
  | _ => 0%Q
  end.
(* gibbs.py:215-237 _reduced_mass on the items of the reduced composition *)
Definition reduced_mass_of (items : list (nat * Q)) : result Q :=
  let denominator := (inject_Z (Z.of_nat (length items) - 1) * Qsum (map snd items))%Q in
  let mass_sum := Qsum (map pair_term (combinations items 2)) in
  if Qeq_bool denominator 0 then Err ZeroDivisionError else Ok (1 / denominator * mass_sum)%Q.
Definition reduced_mass (c : nat) : result Q := reduced_mass_of (el_amts (red C c)).

(* gibbs.py:176-193 _g_delta_sisso; the volume is not zero *)
Definition g_delta_sisso (volume rm temp : Q) : Q :=
  ((-(248 # 1000000) * ln volume - (894 # 10000000) * rm / volume) * temp + (181 # 1000) * ln temp - (882 # 1000))%Q.

(* d[k] *)
Definition find_key {V} (z : Z) (d : list (Z * V)) : result V :=
  match find (fun kv => Z.eqb z (fst kv)) d with Some kv => Ok (snd kv) | None => Err KeyError end.
Definition elem_item (e : nat) (g : list (nat * Q)) : result Q :=
  match dict_get e g with Some v => Ok v | None => Err KeyError end.

(* gibbs.py:204-209 *)
Definition g_interpolated (e : nat) (t : pynum) : result Q :=
  bind (mapM (fun kv => elem_item e (snd kv)) table) (fun ys =>
  interp1d (combine (map (fun kv => inject_Z (fst kv)) table) ys) (pyval t)).
(* gibbs.py:211 G_ELEMS[str(temperature)][elem] *)
Definition g_tabulated (e : nat) (t : pynum) : result Q :=
  match t with
  | PInt z => bind (find_key z table) (elem_item e)
  | PFloat _ => Err KeyError
  end.
(* gibbs.py:195-213 _sum_g_i *)
Definition sum_g_i (items : list (nat * Q)) (t : pynum) : result Q :=
  bind (mapM (fun ea => bind (if off_grid t then g_interpolated (fst ea) t else g_tabulated (fst ea) t)
                             (fun g => Ok (snd ea * g)%Q)) items)
       (fun l => Ok (Qsum l)).

(* gibbs.py:137-159 gibbs_adjustment *)
Definition gibbs_adjustment (c : nat) (volume : Q) (t : pynum) : result Q :=
  if is_element c then Ok 0%Q
  else bind (reduced_mass c) (fun rm =>
       bind (sum_g_i (el_amts c) t) (fun s => Ok (natoms C c * g_delta_sisso volume rm (pyval t) - s)%Q)).

(* entry ids are numbers, 0 is a false one (the empty text); without an id the text
   made of reduced formula and volume is taken *)
Variable default_id : nat -> Q -> nat.

Record gentry := { ge_comp : nat; ge_dhf : Q; ge_vol : Q; ge_temp : pynum; ge_adjs : list adj; ge_id : nat }.

(* gibbs.py:47-120 __init__. Parameters and data are not modelled. *)
Definition gibbs_init (c : nat) (dhf volume : Q) (t : pynum) (adjs : option (list adj)) (id : option nat) : result gentry :=
  if Qlt_bool (pyval t) 300 || Qlt_bool 2000 (pyval t) then Err ValueError
  else
    let kept := match adjs with Some l => filter (fun a => negb (is_sisso a)) l | None => [] end in
    bind (gibbs_adjustment c volume t) (fun v =>
    Ok {| ge_comp := c; ge_dhf := dhf; ge_vol := volume; ge_temp := t; ge_adjs := kept ++ [AConst Sisso v];
          ge_id := match id with Some i => i | None => default_id c volume end |}).

(* ComputedEntry.energy: uncorrected energy (gibbs.py:105) and correction *)
Definition gibbs_energy (e : gentry) : Q := (natoms C (ge_comp e) * ge_dhf e + correction (ge_adjs e))%Q.

(* gibbs.py:122-135 get_new_temperature, through as_dict and from_dict (292-331). The
   adjustments are assumed to be read back unchanged. *)
Definition gibbs_new_temperature (e : gentry) (t : pynum) : result gentry :=
  gibbs_init (ge_comp e) (ge_dhf e) (ge_vol e) t (Some (ge_adjs e)) (Some (ge_id e)).

(* gibbs.py:343-356 __eq__ (both entries of this class) and 358-366: what is hashed *)
Definition gibbs_eq (a b : gentry) : bool :=
  isclose (pyval (ge_temp a)) (pyval (ge_temp b)) && isclose (gibbs_energy a) (gibbs_energy b)
  && (if negb (Nat.eqb (ge_id a) 0) && negb (Nat.eqb (ge_id b) 0) then Nat.eqb (ge_id a) (ge_id b)
      else Nat.eqb (ge_comp a) (ge_comp b)).
Definition gibbs_hash_key (a : gentry) : nat * Q * nat * Q :=
  (ge_comp a, gibbs_energy a, ge_id a, pyval (ge_temp a)).

(* --- entries/experimental.py --- *)
(* REFERENCES of a class: a formula (the number of the reduced composition) gives a
   dictionary from temperature to energy, in its order. *)
Variable refs : nat -> option (list (Q * Q)).
Variable deprecated : nat -> bool.

Record xentry := { xe_comp : nat; xe_temp : pynum; xe_base : Q; xe_adjs : list adj }.

(* experimental.py:99-110 _validate_temperature; min and max of an empty dictionary
   raise ValueError *)
Definition validate (f : nat) (t : pynum) : result unit :=
  if deprecated f then Ok tt
  else match refs f with
       | None => Err ValueError
       | Some [] => Err ValueError
       | Some d => if forallb (fun kv => Qlt_bool (pyval t) (fst kv)) d || forallb (fun kv => Qlt_bool (fst kv) (pyval t)) d
                   then Err ValueError else Ok tt
       end.

(* experimental.py:112-131 _get_energy *)
Definition get_energy (f : nat) (t : pynum) : result Q :=
  if deprecated f then Ok 0%Q
  else match refs f with
       | None => Err KeyError
       | Some d =>
           if off_grid t then interp1d d (pyval t)
           else match find (fun kv => Qeq_bool (pyval t) (fst kv)) d with
                | Some kv => Ok (snd kv)
                | None => Err KeyError
                end
       end.

(* experimental.py:33-70 __init__ *)
Definition exp_init (c : nat) (t : pynum) (adjs : list adj) : result xentry :=
  bind (validate (red C c) t) (fun _ =>
  bind (get_energy (red C c) t) (fun b =>
  Ok {| xe_comp := c; xe_temp := t; xe_base := b; xe_adjs := adjs |})).
Definition exp_energy (e : xentry) : Q := (xe_base e + correction (xe_adjs e))%Q.

(* experimental.py:82-83: every adjustment gets a "temp"; only the constructor of the
   carbon dioxide correction accepts it, the others raise TypeError *)
Definition set_adj_temp (t : Q) (a : adj) : result adj :=
  match a with ACO2 n _ p => Ok (ACO2 n t p) | _ => Err TypeError end.
(* experimental.py:72-86 get_new_temperature *)
Definition exp_new_temperature (e : xentry) (t : pynum) : result xentry :=
  bind (mapM (set_adj_temp (pyval t)) (xe_adjs e)) (fun adjs => exp_init (xe_comp e) t adjs).

(* math.isclose(a, b) with rel_tol=1e-09 *)
Definition math_isclose (a b : Q) : bool :=
  Qle_bool (Qabs (a - b)) ((1 # 1000000000) * (if Qle_bool (Qabs a) (Qabs b) then Qabs b else Qabs a))%Q.
Definition exp_correction_per_atom (e : xentry) : Q := (correction (xe_adjs e) / natoms C (xe_comp e))%Q.
(* experimental.py:202-212 __eq__ and 214-218: the text that is hashed is made of the
   class name (the same here), the formula of the whole composition and the temperature
   as text *)
Definition exp_eq (a b : xentry) : bool :=
  Nat.eqb (red C (xe_comp a)) (red C (xe_comp b)) && Qeq_bool (pyval (xe_temp a)) (pyval (xe_temp b))
  && math_isclose (exp_correction_per_atom a) (exp_correction_per_atom b).
Definition exp_hash_key (a : xentry) : nat * pynum := (xe_comp a, xe_temp a).
End Gibbs.

(* --- entries/interpolated.py --- *)
Record ientry := { ie_comp : nat; ie_energy : Q; ie_id : nat }.
(* interpolated.py:79-95 get_new_temperature: a copy *)
Definition interp_new_temperature (e : ientry) (t : pynum) : ientry := e.
(* interpolated.py:114-124 __eq__ and 126-133 *)
Definition interp_eq (a b : ientry) : bool :=
  isclose (ie_energy a) (ie_energy b)
  && (if negb (Nat.eqb (ie_id a) 0) && negb (Nat.eqb (ie_id b) 0) then Nat.eqb (ie_id a) (ie_id b)
      else Nat.eqb (ie_comp a) (ie_comp b)).
Definition interp_hash_key (a : ientry) : nat * Q * nat := (ie_comp a, ie_energy a, ie_id a).
