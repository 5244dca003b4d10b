(* Model of reactions/basic.py, reactions/computed.py and reactions/open.py.

   Compositions and elements are numbers; equality of compositions is equality of
   numbers (pymatgen compares amounts up to 1e-8). What a composition is made of is
   given by a table [chem]. Coefficients and energies are rationals. *)
From Coq Require Import String.
From Verif Require Import Prelude NumQ UtilsModel.
Open Scope list_scope.
Open Scope nat_scope.

(* pymatgen Composition as used by the reactions: c.elements, c[el],
   c.reduced_composition, the factor of get_reduced_composition_and_factor(). *)
Record chem := {
  elems : nat -> list nat;
  amt : nat -> nat -> Q;
  red : nat -> nat;
  fac : nat -> Q
}.

(* c.num_atoms *)
Definition natoms (C : chem) (c : nat) : Q := Qsum (map (amt C c) (elems C c)).

(* d[k] = v on a Python dict kept in insertion order. *)
Fixpoint dict_set {V} (k : nat) (v : V) (d : list (nat * V)) : list (nat * V) :=
  match d with
  | [] => [(k, v)]
  | (k', v') :: d' => if Nat.eqb k k' then (k', v) :: d' else (k', v') :: dict_set k v d'
  end.

Fixpoint dict_get {V} (k : nat) (d : list (nat * V)) : option V :=
  match d with
  | [] => None
  | (k', v') :: d' => if Nat.eqb k k' then Some v' else dict_get k d'
  end.

(* {k: v for k, v in l} *)
Definition dict_of {V} (l : list (nat * V)) : list (nat * V) :=
  fold_left (fun d kv => dict_set (fst kv) (snd kv) d) l [].

Record brxn := {
  comps : list nat;
  coeffs : list Q;
  reactant_coeffs : list (nat * Q);
  product_coeffs : list (nat * Q);
  balanced : bool;
  num_errors : option nat        (* lowest_num_errors; None is np.inf *)
}.

(* sum([k * abs(v) for k, v in d.items()], Composition({}))[el]. Amounts below
   1e-8 are dropped by pymatgen; not modelled. *)
Definition side_total (C : chem) (d : list (nat * Q)) (e : nat) : Q :=
  Qsum (map (fun kv => amt C (fst kv) e * Qabs (snd kv))%Q d).

Definition dict_elems (C : chem) (d : list (nat * Q)) : list nat :=
  flat_map (fun kv => elems C (fst kv)) d.

(* basic.py:74 Composition.almost_equals(rtol=0, atol=1e-6) over the union of the
   elements of both sums. *)
Definition almost_equal_totals (C : chem) (r p : list (nat * Q)) : bool :=
  forallb (fun e => Qle_bool (Qabs (side_total C p e - side_total C r e)) (1 # 1000000))
          (dict_elems C r ++ dict_elems C p).

(* basic.py:33-80 BasicReaction.__init__. The data dictionary is modelled in
   ReactionDataModel.v. *)
Definition basic_init (C : chem) (cs : list nat) (ks : list Q) (b : option bool)
    (nerr : option nat) : brxn :=
  let r := dict_of (filter (fun kv => Qlt_bool (snd kv) 0) (combine cs ks)) in
  let p := dict_of (filter (fun kv => Qlt_bool 0 (snd kv)) (combine cs ks)) in
  {| comps := cs; coeffs := ks; reactant_coeffs := r; product_coeffs := p;
     balanced := match b with Some v => v | None => almost_equal_totals C r p end;
     num_errors := nerr |}.

(* basic.py:306-313 reactants, products *)
Definition reactants (r : brxn) : list nat := map fst (reactant_coeffs r).
Definition products (r : brxn) : list nat := map fst (product_coeffs r).

(* reactions/base.py:46-48 elements (a set; order irrelevant, made duplicate free) *)
Definition elements (C : chem) (r : brxn) : list nat := nodup Nat.eq_dec (flat_map (elems C) (comps r)).

(* --- basic.py:366-421 _balance_coeffs --- *)

(* basic.py:410 np.allclose(comp_matrix @ coeffs, 0) for one coefficient vector *)
Definition candidate_conserves (C : chem) (cs : list nat) (ks : list Q) : bool :=
  forallb (fun e => isclose (Qsum (map (fun ck => amt C (fst ck) e * snd ck)%Q (combine cs ks))) 0)
          (flat_map (elems C) cs).

(* basic.py:411-412 number of species on the wrong side or vanishing *)
Definition candidate_errors (nr np : nat) (ks : list Q) : nat :=
  length (filter (fun sk => Qlt_bool (fst sk * snd sk) (1 # 1000000))
                 (combine (repeat (-1)%Q nr ++ repeat 1%Q np) ks)).

(* basic.py:396-419. [solve] is the pseudo-inverse solution for a choice of
   constrained species: any function. *)
Fixpoint balance_loop (C : chem) (rs ps : list nat) (solve : list nat -> list Q)
    (constraints : list (list nat)) (best : list Q) (low : option nat) : list Q * option nat :=
  match constraints with
  | [] => (best, low)
  | c :: rest =>
      let ks := solve c in
      if candidate_conserves C (rs ++ ps) ks then
        let n := candidate_errors (length rs) (length ps) ks in
        if Nat.eqb n 0 then (ks, Some 0)
        else if (match low with None => true | Some m => Nat.ltb n m end)
             then balance_loop C rs ps solve rest ks (Some n)
             else balance_loop C rs ps solve rest best low
      else balance_loop C rs ps solve rest best low
  end.

(* basic.py:378-392: which species get a fixed coefficient, in order. [rank] is
   numpy.linalg.matrix_rank of the composition matrix: any number. *)
Definition num_constraints (nr np rank : nat) : nat :=
  let diff := nr + np - rank in if Nat.leb 2 diff then diff else 1.

Definition constraint_list (nr np rank : nat) : list (list nat) :=
  let sizes := rev (seq 1 (num_constraints nr np rank)) in
  flat_map (combinations (seq nr np)) sizes ++ flat_map (combinations (seq 0 nr)) sizes.

Definition balance_coeffs (C : chem) (rs ps : list nat) (solve : list nat -> list Q) (rank : nat)
  : list Q * option nat :=
  balance_loop C rs ps solve (constraint_list (length rs) (length ps) rank)
    (repeat 0%Q (length rs + length ps)) None.

(* basic.py:83-114 BasicReaction.balance. For a single species np.squeeze makes the
   coefficients a 0-d array, which the constructor cannot iterate (TypeError),
   unless they are replaced by zeros. *)
Definition basic_balance (C : chem) (rs ps : list nat) (solve : list nat -> list Q) (rank : nat)
  : result brxn :=
  let cs := rs ++ ps in
  let '(ks, low) := balance_coeffs C rs ps solve rank in
  match low with
  | None => Ok (basic_init C cs (repeat 0%Q (length cs)) (Some false) None)
  | Some n =>
      if Nat.eqb (length cs) 1 then Err TypeError
      else Ok (basic_init C cs ks (Some true) (Some n))
  end.

(* list.index *)
Fixpoint list_index (x : nat) (l : list nat) : result nat :=
  match l with
  | [] => Err ValueError
  | y :: ys => if Nat.eqb x y then Ok 0 else bind (list_index x ys) (fun i => Ok (S i))
  end.

(* basic.py:159-161 get_coeff *)
Definition get_coeff (r : brxn) (c : nat) : result Q :=
  bind (list_index c (comps r)) (fun i => index (coeffs r) i).

(* basic.py:128-129 and computed.py:184-185: the rescaled coefficients. A zero
   coefficient gives inf/nan in numpy; here ZeroDivisionError. *)
Definition scaled_to (r : brxn) (c : nat) (factor : Q) : result (list Q) :=
  bind (get_coeff r c) (fun k =>
  if Qeq_bool k 0 then Err ZeroDivisionError
  else Ok (map (fun q => q * Qabs (1 / k * factor))%Q (coeffs r))).

(* basic.py:148-157 get_el_amount *)
Definition get_el_amount (C : chem) (r : brxn) (e : nat) : Q :=
  (Qsum (map (fun ck => amt C (fst ck) e * Qabs (snd ck))%Q (combine (comps r) (coeffs r))) / 2)%Q.

(* basic.py:143-145 and computed.py:199-201 *)
Definition scaled_to_element (C : chem) (r : brxn) (e : nat) (factor : Q) : result (list Q) :=
  let a := get_el_amount C r e in
  if Qeq_bool a 0 then Err ZeroDivisionError
  else Ok (map (fun q => q * (factor / a))%Q (coeffs r)).

(* basic.py:116-130 normalize_to: the error count is not passed on *)
Definition basic_normalize_to (C : chem) (r : brxn) (c : nat) (factor : Q) : result brxn :=
  bind (scaled_to r c factor) (fun ks => Ok (basic_init C (comps r) ks None (Some 0))).

(* basic.py:132-146 normalize_to_element *)
Definition basic_normalize_to_element (C : chem) (r : brxn) (e : nat) (factor : Q) : result brxn :=
  bind (scaled_to_element C r e factor) (fun ks => Ok (basic_init C (comps r) ks None (Some 0))).

(* basic.py:169-177 copy; 179-189 reverse *)
Definition basic_copy (C : chem) (r : brxn) : brxn :=
  basic_init C (comps r) (coeffs r) (Some (balanced r)) (num_errors r).
Definition basic_reverse (C : chem) (r : brxn) : brxn :=
  basic_init C (comps r) (map Qopp (coeffs r)) (Some (balanced r)) (num_errors r).

(* basic.py:325-328 num_atoms over the given elements *)
Definition num_atoms_of (C : chem) (els : list nat) (r : brxn) : Q :=
  Qsum (map (fun kv => snd kv * Qsum (map (amt C (fst kv)) els))%Q (product_coeffs r)).
Definition num_atoms (C : chem) (r : brxn) : Q := num_atoms_of C (elements C r) r.

(* The items of a dictionary are divided by n. Division by zero gives nan or inf in
   numpy; here ZeroDivisionError. An empty dictionary divides nothing. *)
Definition divides_by_zero {A} (d : list A) (n : Q) : bool := match d with [] => false | _ => Qeq_bool n 0 end.

(* basic.py:226-242 atomic fractions *)
Definition reactant_atomic_fractions (C : chem) (r : brxn) : result (list (nat * Q)) :=
  if negb (balanced r) then Err ValueError
  else if divides_by_zero (reactant_coeffs r) (num_atoms C r) then Err ZeroDivisionError
  else Ok (dict_of (map (fun kv => (red C (fst kv), - snd kv * natoms C (fst kv) / num_atoms C r)%Q)
                        (reactant_coeffs r))).
Definition product_atomic_fractions (C : chem) (r : brxn) : result (list (nat * Q)) :=
  if negb (balanced r) then Err ValueError
  else if divides_by_zero (product_coeffs r) (num_atoms C r) then Err ZeroDivisionError
  else Ok (dict_of (map (fun kv => (red C (fst kv), snd kv * natoms C (fst kv) / num_atoms C r)%Q)
                        (product_coeffs r))).

(* basic.py:244-262 molar fractions *)
Definition molar_fractions (r : brxn) (d : list (nat * Q)) : result (list (nat * Q)) :=
  if negb (balanced r) then Err ValueError
  else let total := Qsum (map snd d) in
       if divides_by_zero d total then Err ZeroDivisionError
       else Ok (map (fun kv => (fst kv, snd kv / total)%Q) d).

(* set(a) == set(b) *)
Definition same_set (a b : list nat) : bool :=
  forallb (fun x => memb Nat.eqb x b) a && forallb (fun x => memb Nat.eqb x a) b.

(* basic.py:345-351 _get_is_identity. The value lookup cannot fail because the key
   sets agree; 0 stands for the impossible KeyError. *)
Definition is_identity (r : brxn) : bool :=
  if negb (same_set (reactants r) (products r)) then false
  else if negb (balanced r) then true
  else forallb (fun kv => isclose (snd kv * -1)
         (match dict_get (fst kv) (product_coeffs r) with Some v => v | None => 0%Q end))%Q
         (reactant_coeffs r).

(* basic.py:191-224 is_separable. [els] is self.elements. COMMON_GASES is a list of
   strings (data/common_gases.json); a pymatgen Composition is never equal to a
   string. *)
Fixpoint set_remove_all (ts s : list nat) : result (list nat) :=
  match ts with
  | [] => Ok s
  | t :: ts' => if memb Nat.eqb t s then set_remove_all ts' (filter (fun x => negb (Nat.eqb x t)) s)
                else Err KeyError
  end.
Inductive pyval := VComp (c : nat) | VStr (s : string).
Definition py_eq (a b : pyval) : bool :=
  match a, b with
  | VComp x, VComp y => Nat.eqb x y
  | VStr x, VStr y => String.eqb x y
  | _, _ => false
  end.
(* data/common_gases.json *)
Definition gas_names : list string :=
  ["Ar"; "BH3"; "Br"; "CO"; "CO2"; "CS2"; "H2"; "H2C"; "H2N"; "H2O"; "H2S"; "H2Se"; "H3N";
   "H4C"; "H5C2"; "H8C3"; "HCl"; "HI"; "He"; "Kr"; "N2"; "N2O"; "NO"; "Ne"; "O2"; "O2";
   "PH3"; "Rn"; "SF6"; "SO2"; "SiH4"; "WF6"; "Xe"]%string.
Definition COMMON_GASES : list pyval := map VStr gas_names.
(* basic.py:220 comp in COMMON_GASES *)
Definition in_common_gases (c : nat) : bool := existsb (py_eq (VComp c)) COMMON_GASES.
Definition is_separable (C : chem) (els : list nat) (r : brxn) (target : nat) : result bool :=
  match filter (fun c => Nat.eqb (red C c) (red C target)) (comps r) with
  | [] => Err ValueError
  | ts =>
      let added := filter (fun e => negb (memb Nat.eqb e (elems C target))) els in
      bind (set_remove_all ts (products r)) (fun rest =>
      Ok (forallb (fun c => in_common_gases c
                            || forallb (fun e => memb Nat.eqb e added) (elems C c)) rest))
  end.

(* sorted(coefficients) *)
Fixpoint insertQ (a : Q) (l : list Q) : list Q :=
  match l with
  | [] => [a]
  | b :: l' => if Qle_bool a b then a :: l else b :: insertQ a l'
  end.
Definition sortQ (l : list Q) : list Q := fold_right insertQ [] l.

(* np.allclose of two 1-d arrays with broadcasting: arrays of different length
   raise ValueError unless one of them has length 1. *)
Definition np_allclose (l1 l2 : list Q) : result bool :=
  if Nat.eqb (length l1) (length l2) then Ok (allclose l1 l2)
  else match l1, l2 with
       | [a], _ => Ok (forallb (fun b => isclose a b) l2)
       | _, [b] => Ok (forallb (fun a => isclose a b) l1)
       | _, _ => Err ValueError
       end.

(* basic.py:460-479 __eq__ on two different objects. The chemical system string is
   represented by the set of elements it is joined from. *)
Definition basic_eq_on (els1 els2 : list nat) (r1 r2 : brxn) : result bool :=
  if negb (same_set els1 els2) then Ok false
  else if negb (Nat.eqb (length (products r1)) (length (products r2))) then Ok false
  else if negb (Nat.eqb (length (reactants r1)) (length (reactants r2))) then Ok false
  else bind (np_allclose (sortQ (coeffs r1)) (sortQ (coeffs r2))) (fun close =>
    if negb close then Ok false
    else if negb (same_set (reactants r1) (reactants r2)) then Ok false
    else Ok (same_set (products r1) (products r2))).
Definition basic_eq (C : chem) (r1 r2 : brxn) : result bool :=
  basic_eq_on (elements C r1) (elements C r2) r1 r2.

(* basic.py:481-484 __hash__: the hashed tuple. Two reactions have the same hash
   when the element sets and the sorted coefficients agree. *)
Definition same_hash_key (C : chem) (r1 r2 : brxn) : bool :=
  same_set (elements C r1) (elements C r2)
  && Nat.eqb (length (coeffs r1)) (length (coeffs r2))
  && forallb (fun ab => Qeq_bool (fst ab) (snd ab)) (combine (sortQ (coeffs r1)) (sortQ (coeffs r2))).

(* --- reactions/computed.py --- *)

(* A ComputedEntry: identity, composition and total energy. *)
Record entry := { e_id : nat; e_comp : nat; e_energy : Q }.

Record crxn := { c_entries : list entry; c_base : brxn }.

(* computed.py:28-47 __init__ *)
Definition computed_init (C : chem) (es : list entry) (ks : list Q) (nerr : option nat) : crxn :=
  {| c_entries := es; c_base := basic_init C (map (fun e => red C (e_comp e)) es) ks None nerr |}.

(* computed.py:43-44 *)
Definition reactant_entries (r : crxn) : list entry :=
  map fst (filter (fun ek => Qlt_bool (snd ek) 0) (combine (c_entries r) (coeffs (c_base r)))).
Definition product_entries (r : crxn) : list entry :=
  map fst (filter (fun ek => Qlt_bool 0 (snd ek)) (combine (c_entries r) (coeffs (c_base r)))).

(* computed.py:49-79 balance. The squeezed coefficients of a single species cannot be
   iterated: TypeError. *)
Definition computed_balance (C : chem) (rs ps : list entry) (solve : list nat -> list Q) (rank : nat)
  : result crxn :=
  let rc := map (fun e => red C (e_comp e)) rs in
  let pc := map (fun e => red C (e_comp e)) ps in
  let '(ks, low) := balance_coeffs C rc pc solve rank in
  if Nat.eqb (length rs + length ps) 1 then Err TypeError
  else Ok (computed_init C (rs ++ ps) ks low).

(* computed.py:115-119: the dict of lowest energies per formula unit. The same loop
   over the grand potential entries is at open.py:140-148. *)
Definition calc_energies (C : chem) (es : list entry) (energy : entry -> Q) : list (nat * Q) :=
  fold_left (fun d e =>
    let comp := red C (e_comp e) in
    let v := (energy e / fac C (e_comp e))%Q in
    dict_set comp (match dict_get comp d with
                   | None => v
                   | Some w => if Qlt_bool v w then v else w end) d) es [].

Definition energy_of (C : chem) (es : list entry) (energy : entry -> Q) (r : brxn) : result Q :=
  let d := calc_energies C es energy in
  bind (mapM (fun kc => match dict_get (snd kc) d with
                        | Some v => Ok (fst kc * v)%Q
                        | None => Err KeyError end) (combine (coeffs r) (comps r)))
       (fun l => Ok (Qsum l)).

(* computed.py:110-121 energy *)
Definition computed_energy (C : chem) (r : crxn) : result Q :=
  energy_of C (c_entries r) e_energy (c_base r).

(* computed.py:123-129 energy_per_atom; nan for zero atoms is ZeroDivisionError *)
Definition per_atom (e n : Q) : result Q :=
  if Qeq_bool n 0 then Err ZeroDivisionError else Ok (e / n)%Q.
Definition computed_energy_per_atom (C : chem) (r : crxn) : result Q :=
  bind (computed_energy C r) (fun e => per_atom e (num_atoms C (c_base r))).

(* computed.py:165-202 *)
Definition computed_copy (C : chem) (r : crxn) : crxn :=
  computed_init C (c_entries r) (coeffs (c_base r)) (num_errors (c_base r)).
Definition computed_reverse (C : chem) (r : crxn) : crxn :=
  computed_init C (c_entries r) (map (fun q => -1 * q)%Q (coeffs (c_base r))) (num_errors (c_base r)).
Definition computed_normalize_to (C : chem) (r : crxn) (c : nat) (factor : Q) : result crxn :=
  bind (scaled_to (c_base r) c factor) (fun ks =>
  Ok (computed_init C (c_entries r) ks (num_errors (c_base r)))).
Definition computed_normalize_to_element (C : chem) (r : crxn) (e : nat) (factor : Q) : result crxn :=
  bind (scaled_to_element C (c_base r) e factor) (fun ks =>
  Ok (computed_init C (c_entries r) ks (num_errors (c_base r)))).

(* computed.py:81-108 and open.py:107-133, the new entries of get_new_temperature:
   [new_entry] is either
   e.get_new_temperature(T) or the table lookup entries_at_temp.get(e.composition);
   None has no composition, so the constructor raises AttributeError. *)
Definition new_entries (new_entry : entry -> option entry) (es : list entry) : result (list entry) :=
  mapM (fun e => match new_entry e with Some e' => Ok e' | None => Err AttributeError end) es.

(* computed.py:204-217 get_entry_idx_vector: v[indices] = coefficients; for a
   repeated index the last assignment wins. [e_id] is entry.data["idx"]. *)
Fixpoint set_nth {V} (i : nat) (v : V) (l : list V) : result (list V) :=
  match i, l with
  | _, [] => Err IndexError
  | 0, _ :: l' => Ok (v :: l')
  | S i', x :: l' => bind (set_nth i' v l') (fun r => Ok (x :: r))
  end.
Definition get_entry_idx_vector (r : crxn) (n : nat) : result (list Q) :=
  if negb (Nat.eqb (length (c_entries r)) (length (coeffs (c_base r)))) then Err ValueError
  else fold_left (fun acc ek => bind acc (set_nth (e_id (fst ek)) (snd ek)))
         (combine (c_entries r) (coeffs (c_base r))) (Ok (repeat 0%Q n)).

(* computed.py:219-227 __eq__ *)
Definition computed_eq (C : chem) (r1 r2 : crxn) : result bool :=
  bind (basic_eq C (c_base r1) (c_base r2)) (fun b =>
  if b then bind (computed_energy_per_atom C r1) (fun e1 =>
            bind (computed_energy_per_atom C r2) (fun e2 => Ok (isclose e1 e2)))
  else Ok false).

(* --- reactions/open.py --- *)

Record orxn := { o_base : crxn; chempots : list (nat * Q) }.

(* open.py:28-63 __init__ *)
Definition open_init (C : chem) (es : list entry) (ks : list Q) (mu : list (nat * Q)) (nerr : option nat) : orxn :=
  {| o_base := computed_init C es ks nerr; chempots := mu |}.

(* open.py:57-58: the reduced composition is a single open element *)
Definition is_pure_open (C : chem) (mu : list (nat * Q)) (c : nat) : bool :=
  match elems C (red C c) with
  | [e] => memb Nat.eqb e (map fst mu)
  | _ => false
  end.

(* open.py:55-63: entry.energy of the grand potential entries. pymatgen's
   GrandPotPDEntry subtracts composition[el] * mu[el] for every open element. *)
Definition grand_energy (C : chem) (mu : list (nat * Q)) (e : entry) : Q :=
  if is_pure_open C mu (e_comp e) then e_energy e
  else (e_energy e - Qsum (map (fun em => amt C (e_comp e) (fst em) * snd em) mu))%Q.

(* open.py:135-150 energy *)
Definition open_energy (C : chem) (r : orxn) : result Q :=
  energy_of C (c_entries (o_base r)) (grand_energy C (chempots r)) (c_base (o_base r)).

(* open.py:152-155 elements *)
Definition open_elements (C : chem) (r : orxn) : list nat :=
  filter (fun e => negb (memb Nat.eqb e (map fst (chempots r)))) (elements C (c_base (o_base r))).

Definition open_num_atoms (C : chem) (r : orxn) : Q := num_atoms_of C (open_elements C r) (c_base (o_base r)).

(* computed.py:123-129, inherited *)
Definition open_energy_per_atom (C : chem) (r : orxn) : result Q :=
  bind (open_energy C r) (fun e => per_atom e (open_num_atoms C r)).

(* open.py:162-180 *)
Definition open_copy (C : chem) (r : orxn) : orxn :=
  open_init C (c_entries (o_base r)) (coeffs (c_base (o_base r))) (chempots r) (num_errors (c_base (o_base r))).
Definition open_reverse (C : chem) (r : orxn) : orxn :=
  open_init C (c_entries (o_base r)) (map (fun q => -1 * q)%Q (coeffs (c_base (o_base r)))) (chempots r)
    (num_errors (c_base (o_base r))).

(* open.py:107-133 get_new_temperature *)
Definition open_new_temperature (C : chem) (new_entry : entry -> option entry) (r : orxn) : result orxn :=
  bind (new_entries new_entry (c_entries (o_base r))) (fun es =>
  Ok (open_init C es (coeffs (c_base (o_base r))) (chempots r) (num_errors (c_base (o_base r))))).

(* open.py:182-202 atomic fractions; the product version lacks the coefficient *)
Definition open_reactant_atomic_fractions (C : chem) (r : orxn) : result (list (nat * Q)) :=
  let b := c_base (o_base r) in
  let n := open_num_atoms C r in
  if negb (balanced b) then Err ValueError
  else if divides_by_zero (reactant_coeffs b) n then Err ZeroDivisionError
  else Ok (dict_of (map (fun kv =>
    (red C (fst kv), - snd kv * Qsum (map (amt C (fst kv)) (open_elements C r)) / n)%Q) (reactant_coeffs b))).
Definition open_product_atomic_fractions (C : chem) (r : orxn) : result (list (nat * Q)) :=
  let b := c_base (o_base r) in
  let n := open_num_atoms C r in
  if negb (balanced b) then Err ValueError
  else if divides_by_zero (product_coeffs b) n then Err ZeroDivisionError
  else Ok (dict_of (map (fun kv =>
    (red C (fst kv), Qsum (map (amt C (fst kv)) (open_elements C r)) / n)%Q) (product_coeffs b))).

(* open.py:204-221 from_computed_rxn *)
Definition from_computed_rxn (C : chem) (r : crxn) (mu : list (nat * Q)) : orxn :=
  open_init C (c_entries r) (coeffs (c_base r)) mu (num_errors (c_base r)).

(* The dynamic class of a reaction, and the methods found through it. normalize_to,
   normalize_to_element and energy_per_atom are not overridden in
   OpenComputedReaction. *)
Inductive rxn := RBasic (r : brxn) | RComputed (r : crxn) | ROpen (r : orxn).

Definition base_of (r : rxn) : brxn :=
  match r with RBasic b => b | RComputed c => c_base c | ROpen o => c_base (o_base o) end.

Definition normalize_to (C : chem) (r : rxn) (c : nat) (factor : Q) : result rxn :=
  match r with
  | RBasic b => bind (basic_normalize_to C b c factor) (fun x => Ok (RBasic x))
  | RComputed k => bind (computed_normalize_to C k c factor) (fun x => Ok (RComputed x))
  | ROpen o => bind (computed_normalize_to C (o_base o) c factor) (fun x => Ok (RComputed x))
  end.
Definition normalize_to_element (C : chem) (r : rxn) (e : nat) (factor : Q) : result rxn :=
  match r with
  | RBasic b => bind (basic_normalize_to_element C b e factor) (fun x => Ok (RBasic x))
  | RComputed k => bind (computed_normalize_to_element C k e factor) (fun x => Ok (RComputed x))
  | ROpen o => bind (computed_normalize_to_element C (o_base o) e factor) (fun x => Ok (RComputed x))
  end.
Definition copy (C : chem) (r : rxn) : rxn :=
  match r with
  | RBasic b => RBasic (basic_copy C b)
  | RComputed k => RComputed (computed_copy C k)
  | ROpen o => ROpen (open_copy C o)
  end.
Definition reverse (C : chem) (r : rxn) : rxn :=
  match r with
  | RBasic b => RBasic (basic_reverse C b)
  | RComputed k => RComputed (computed_reverse C k)
  | ROpen o => ROpen (open_reverse C o)
  end.
(* basic.py:330-338 energy of a BasicReaction raises ValueError *)
Definition energy (C : chem) (r : rxn) : result Q :=
  match r with
  | RBasic _ => Err ValueError
  | RComputed k => computed_energy C k
  | ROpen o => open_energy C o
  end.
Definition energy_per_atom (C : chem) (r : rxn) : result Q :=
  match r with
  | RBasic _ => Err ValueError
  | RComputed k => computed_energy_per_atom C k
  | ROpen o => open_energy_per_atom C o
  end.
Definition entries_of (r : rxn) : list entry :=
  match r with RBasic _ => [] | RComputed k => c_entries k | ROpen o => c_entries (o_base o) end.
