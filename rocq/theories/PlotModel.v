(* Model of PathwayPlotter, pathways/plotting.py: the frame of phase amounts, the
   compositions and the energy cascade. A phase is the number of the composition of its
   formula; amounts, temperatures and energies are rationals. The drawing itself is not
   modelled. *)
From Verif Require Import Prelude NumQ UtilsModel ReactionModel SolveJobModel.
Open Scope nat_scope.

(* scipy.ndimage.median_filter(size=3) on one column; the default mode "reflect" repeats
   the first and the last value. *)
Definition med3 (a b c : Q) : Q :=
  if Qle_bool a b
  then (if Qle_bool b c then b else if Qle_bool a c then c else a)
  else (if Qle_bool a c then a else if Qle_bool b c then c else b).
Fixpoint median_from (before : Q) (l : list Q) : list Q :=
  match l with
  | [] => []
  | x :: rest => med3 before x (hd x rest) :: median_from x rest
  end.
Definition median_filter (l : list Q) : list Q := match l with [] => [] | x :: _ => median_from x l end.

(* plotting.py:98-104 _get_phase_df: columns (phase, amounts). pandas raises when a column
   and the index have different lengths. *)
Definition phase_df (smoothing : bool) (temps : list Q) (phases : list (nat * list Q)) : result (list (nat * list Q)) :=
  if forallb (fun p => Nat.eqb (length (snd p)) (length temps)) phases
  then Ok (if smoothing then map (fun p => (fst p, median_filter (snd p))) phases else phases)
  else Err ValueError.

Section Plot.
Variable C : chem.
(* GibbsEntrySet.from_computed_entries(entries, temp), in iteration order *)
Variable set_at : Q -> result (list entry).
(* PhaseDiagram(gibbs_entries).get_hull_energy(composition) *)
Variable hull : list entry -> list (nat * Q) -> result Q.

(* plotting.py:123-126 elems *)
Definition plot_elems (df : list (nat * list Q)) : list nat := nodup Nat.eq_dec (flat_map (fun p => elems C (fst p)) df).
(* plotting.py:106-121 _get_num_atoms_df, one row *)
Definition num_atoms_row (df : list (nat * list Q)) (i : nat) : list (nat * Q) :=
  map (fun e => (e, Qsum (map (fun p => nth i (snd p) 0 * amt C (fst p) e)%Q df))) (plot_elems df).

(* pymatgen Composition(dict): amounts below 1e-8 are dropped, negative ones raise *)
Definition composition (l : list (nat * Q)) : result (list (nat * Q)) :=
  if existsb (fun kv => Qlt_bool (snd kv) (- (1 # 100000000))) l then Err ValueError
  else Ok (filter (fun kv => Qle_bool (1 # 100000000) (Qabs (snd kv))) l).
(* Composition.fractional_composition *)
Definition fractional (l : list (nat * Q)) : result (list (nat * Q)) :=
  let n := Qsum (map (fun kv => Qabs (snd kv)) l) in
  if Qeq_bool n 0 then Err ZeroDivisionError else composition (map (fun kv => (fst kv, snd kv / n)%Q) l).
(* plotting.py:143-154 compositions, one row *)
Definition composition_row (df : list (nat * list Q)) (i : nat) : result (list (nat * Q)) :=
  bind (composition (num_atoms_row df i)) fractional.

(* pymatgen PhaseDiagram: the reference of an element is its entry with the lowest energy
   per atom; get_form_energy_per_atom *)
Definition is_pure (e : nat) (x : entry) : bool := if list_eq_dec Nat.eq_dec (elems C (e_comp x)) [e] then true else false.
Definition lower (x y : entry) : entry :=
  if Qlt_bool (e_energy y / natoms C (e_comp y)) (e_energy x / natoms C (e_comp x)) then y else x.
Definition el_ref (ents : list entry) (e : nat) : result Q :=
  match filter (is_pure e) ents with
  | [] => Err ValueError
  | x :: xs => let r := fold_left lower xs x in Ok (e_energy r / natoms C (e_comp r))%Q
  end.
Definition form_energy_per_atom (ents : list entry) (x : entry) : result Q :=
  bind (mapM (el_ref ents) (elems C (e_comp x))) (fun refs =>
  Ok ((e_energy x - Qsum (map (fun er => amt C (e_comp x) (fst er) * snd er)%Q (combine (elems C (e_comp x)) refs)))
      / natoms C (e_comp x))%Q).

(* plotting.py:89-94 the energy of one phase *)
Definition phase_energy (ents : list entry) (f : nat) : result Q :=
  bind (ground C ents (seq 0 (length ents)) (red C f)) (fun x =>
  bind (form_energy_per_atom ents x) (fun q => Ok (q * natoms C (red C f))%Q)).

(* plotting.py:72-96 _get_energies, one temperature: ground state energy and the energies
   of the phases. A temperature given twice selects a Series of compositions, which the
   phase diagram cannot take. *)
Definition energies_at (temps : list Q) (df : list (nat * list Q)) (comp : list (nat * Q)) (t : Q) : result (Q * list Q) :=
  bind (set_at t) (fun ents =>
  bind (mapM (el_ref ents) (nodup Nat.eq_dec (flat_map (fun x => elems C (e_comp x)) ents))) (fun _ =>
  if 1 <? length (filter (Qeq_bool t) temps) then Err AttributeError else
  bind (hull ents comp) (fun h =>
  bind (mapM (fun p => phase_energy ents (fst p)) df) (fun es => Ok (h, es))))).

(* plotting.py:51-70 plot_energy_cascade: the values drawn. Without temperatures or phases
   the look-up of "ground_state" or of a composition raises KeyError. *)
Definition cascade (smoothing : bool) (temps : list Q) (phases : list (nat * list Q)) : result (list Q) :=
  bind (phase_df smoothing temps phases) (fun df =>
  match temps, df with
  | [], _ | _, [] => Err KeyError
  | _, _ =>
    bind (mapM (composition_row df) (seq 0 (length temps))) (fun comps =>
    bind (mapM (fun ct => energies_at temps df (fst ct) (snd ct)) (combine comps temps)) (fun rows =>
    Ok (map (fun ir =>
          let n := Qsum (map snd (num_atoms_row df (fst ir))) in
          (Qsum (map (fun pe => nth (fst ir) (snd (fst pe)) 0 * snd pe / n) (combine df (snd (snd ir)))) - fst (snd ir))%Q)
        (combine (seq 0 (length rows)) rows))))
  end).
End Plot.
