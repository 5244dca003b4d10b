(* Model of entries/entry_set.py and of process_entries and initialize_entry of
   entries/utils.py. *)
From Verif Require Import Prelude NumQ UtilsModel ReactionModel SolverModel EnumModel RunModel GibbsModel.
Open Scope nat_scope.

(* The members of a GibbsEntrySet are numbers; equal entries (== and hash) have the same
   number. A Python set is the list of its members in iteration order. *)
Definition mem (e : nat) (l : list nat) : bool := memb Nat.eqb e l.
Definition set_add (e : nat) (l : list nat) : list nat := if mem e l then l else l ++ [e].
Definition set_discard (e : nat) (l : list nat) : list nat := filter (fun x => negb (Nat.eqb x e)) l.
Definition set_update (es l : list nat) : list nat := fold_left (fun acc e => set_add e acc) es l.

(* --- Cached properties --- *)
Section Cache.
(* Names of the cached properties: pd_dict 129-135, entries_list 557-560,
   min_entries_by_formula 562-574, temperature 576-589, chemsys 591-600. Each is a
   function of the set; a property that raises is not stored. *)
Variable view : Type.
Variable view_eqb : view -> view -> bool.
Variable value : Type.
Variable compute : view -> list nat -> result value.
Variable arrange : list nat -> list nat.         (* iteration order after a change *)

Record eset := { es_members : list nat; es_cache : list (view * value) }.
(* 60-80 __init__: without the two options that change the entries' data *)
Definition es_init (entries : list nat) : eset := {| es_members := arrange (set_update entries []); es_cache := [] |}.

(* functools.cached_property *)
Definition cache_get (v : view) (c : list (view * value)) : option value :=
  match find (fun kv => view_eqb v (fst kv)) c with Some kv => Some (snd kv) | None => None end.
Definition read (v : view) (s : eset) : eset * result value :=
  match cache_get v (es_cache s) with
  | Some x => (s, Ok x)
  | None => match compute v (es_members s) with
            | Ok x => ({| es_members := es_members s; es_cache := (v, x) :: es_cache s |}, Ok x)
            | Err e => (s, Err e)
            end
  end.

(* 99-127 add, update, discard; each ends with _clear_cache (687-696), which deletes
   every cached property of the class *)
Definition add (e : nat) (s : eset) : eset := {| es_members := arrange (set_add e (es_members s)); es_cache := [] |}.
Definition update (es : list nat) (s : eset) : eset := {| es_members := arrange (set_update es (es_members s)); es_cache := [] |}.
Definition discard (e : nat) (s : eset) : eset := {| es_members := arrange (set_discard e (es_members s)); es_cache := [] |}.

(* collections.abc.MutableSet: remove, pop, clear, |=, &=, -= *)
Definition remove (e : nat) (s : eset) : eset * result unit :=
  if mem e (es_members s) then (discard e s, Ok tt) else (s, Err KeyError).
Definition pop (s : eset) : eset * result nat :=
  match es_members s with [] => (s, Err KeyError) | x :: _ => (discard x s, Ok x) end.
Fixpoint clear_loop (fuel : nat) (s : eset) : eset :=
  match fuel with
  | 0 => s
  | S n => match pop s with (s', Ok _) => clear_loop n s' | (s', Err _) => s' end
  end.
Definition clear (s : eset) : eset := clear_loop (S (length (es_members s))) s.
Definition ior (es : list nat) (s : eset) : eset := fold_left (fun acc e => add e acc) es s.
Definition isub (es : list nat) (s : eset) : eset := fold_left (fun acc e => discard e acc) es s.
Definition iand (es : list nat) (s : eset) : eset :=
  isub (filter (fun x => negb (mem x es)) (es_members s)) s.

Inductive op :=
| OAdd (e : nat) | OUpdate (es : list nat) | ODiscard (e : nat) | ORemove (e : nat) | OPop | OClear
| OIor (es : list nat) | OIsub (es : list nat) | OIand (es : list nat) | ORead (v : view).
Definition step (s : eset) (o : op) : eset :=
  match o with
  | OAdd e => add e s
  | OUpdate es => update es s
  | ODiscard e => discard e s
  | ORemove e => fst (remove e s)
  | OPop => fst (pop s)
  | OClear => clear s
  | OIor es => ior es s
  | OIsub es => isub es s
  | OIand es => iand es s
  | ORead v => fst (read v s)
  end.
Definition run (s : eset) (ops : list op) : eset := fold_left step ops s.
End Cache.
Arguments es_members {view value} e.
Arguments es_cache {view value} e.

Section Views.
Variable elems : nat -> list nat.                (* elements of the composition *)
Variable formula : nat -> nat.                   (* reduced formula *)
Variable epa : nat -> Q.                         (* energy_per_atom *)
Variable sorted : list nat -> list nat.          (* sorted(entries, key=composition) *)

(* 591-600 chemsys *)
Definition chem_sys (members : list nat) : list nat := set_update (flat_map elems members) [].

(* 562-574 min_entries_by_formula *)
Definition min_entries (members : list nat) : list (nat * nat) :=
  fold_left (fun d e =>
      if memb Nat.eqb (formula e) (map fst d) then d
      else match sort_by (map (fun x => (epa x, x)) (filter (fun x => Nat.eqb (formula x) (formula e)) members)) with
           | [] => d
           | m :: _ => d ++ [(formula e, snd m)]
           end) members [].
(* 211-220 get_min_entry_by_formula; the formula given is reduced first *)
Definition get_min_entry (members : list nat) (f : nat) : result nat :=
  match dict_get f (min_entries members) with Some e => Ok e | None => Err KeyError end.

(* 137-160 get_subset_in_chemsys *)
Definition get_subset (members chemsys : list nat) : result (list nat) :=
  if subset chemsys (chem_sys members)
  then Ok (filter (fun e => subset (elems e) chemsys) members)
  else Err ValueError.

(* 162-195 filter_by_stability. A phase diagram is the list of its entries;
   get_e_above_hull of a diagram for one of its own entries does not raise. *)
Variable e_hull : list nat -> nat -> Q.
Record fstate := { f_set : list nat; f_comps : list (nat * nat) }.
Definition f_put (e : nat) (s : fstate) (members : list nat) : fstate :=
  {| f_set := set_add e members; f_comps := dict_set (formula e) e (f_comps s) |}.
Definition f_entry (cutoff : Q) (poly : bool) (pd : list nat) (e : nat) (s : fstate) : result fstate :=
  if mem e (f_set s) || Qlt_bool cutoff (e_hull pd e) then Ok s
  else if poly then Ok (f_put e s (f_set s))
  else match dict_get (formula e) (f_comps s) with
       | None => Ok (f_put e s (f_set s))
       | Some old =>
           if Qlt_bool (epa old) (epa e) then Ok s
           else if mem old (f_set s) then Ok (f_put e s (set_discard old (f_set s))) else Err KeyError
       end.
Fixpoint f_loop (cutoff : Q) (poly : bool) (pd todo : list nat) (s : fstate) : result fstate :=
  match todo with
  | [] => Ok s
  | e :: rest => bind (f_entry cutoff poly pd e s) (f_loop cutoff poly pd rest)
  end.
Fixpoint f_pds (cutoff : Q) (poly : bool) (pds : list (list nat)) (s : fstate) : result fstate :=
  match pds with
  | [] => Ok s
  | pd :: rest => bind (f_loop cutoff poly pd pd s) (f_pds cutoff poly rest)
  end.
Definition filter_pds (cutoff : Q) (poly : bool) (pds : list (list nat)) : result (list nat) :=
  bind (f_pds cutoff poly pds {| f_set := []; f_comps := [] |}) (fun s => Ok (f_set s)).
Definition filter_by_stability (members : list nat) (cutoff : Q) (poly : bool) : result (list nat) :=
  filter_pds cutoff poly (map snd (expand_pd elems members)).

(* --- Indices --- *)
(* 197-209 build_indices: the data of the entry objects, which other sets share *)
Definition indices := nat -> option nat.
Fixpoint number (i : nat) (l : list nat) (d : indices) : indices :=
  match l with
  | [] => d
  | e :: l' => number (S i) l' (fun x => if Nat.eqb x e then Some i else d x)
  end.
Definition build_indices (members : list nat) (d : indices) : indices := number 0 (sorted members) d.

(* 557-560, 264-283 get_entries_with_new_temperature: [warm e] is
   e.get_new_temperature(T); only ValueError is caught. *)
Fixpoint warm_loop (warm : nat -> result nat) (l : list nat) : result (list nat) :=
  match l with
  | [] => Ok []
  | e :: l' => match warm e with
               | Ok x => bind (warm_loop warm l') (fun r => Ok (x :: r))
               | Err ValueError => warm_loop warm l'
               | Err x => Err x
               end
  end.
Definition new_temperature (warm : nat -> result nat) (members : list nat) : result (list nat) :=
  bind (warm_loop warm (sorted members)) (fun l => Ok (set_update l [])).

(* entries/utils.py:99-120 initialize_entry without stabilize; [interp f] is
   get_interpolated_entry(f) *)
Definition initialize_entry (interp : nat -> result nat) (members : list nat) (f : nat) : result nat :=
  match get_min_entry members f with Err KeyError => interp f | r => r end.

(* entries/utils.py:74-96 process_entries, given the set made by from_computed_entries
   at temperature [temp]; [other] tells if the wanted temperature is another one. The
   copy with energies above hull (93-94) has the same entries. *)
Definition process_entries (interp warm : nat -> result nat) (members : list nat) (cutoff : Q) (poly : bool) (formulas : list nat) (other : bool) : result (list nat) :=
  bind (mapM (initialize_entry interp members) formulas) (fun included =>
  bind (filter_by_stability members cutoff poly) (fun kept =>
  let s := set_update included kept in
  if other then new_temperature warm s else Ok s)).
End Views.

(* --- Changing the energy of one entry --- *)
Inductive anyentry := AG (e : gentry) | AX (e : xentry) | AI (c : nat) (base : Q) (adjs : list adj) (id : nat).

Section Adjust.
Variable ln : Q -> Q.
Variable C : chem.
Variable mass : nat -> Q.
Variable table : list (Z * list (nat * Q)).
Variable default_id : nat -> Q -> nat.
Variable refs : nat -> option (list (Q * Q)).
Variable deprecated : nat -> bool.

Definition any_comp (e : anyentry) : nat := match e with AG g => ge_comp g | AX x => xe_comp x | AI c _ _ _ => c end.
Definition any_energy (e : anyentry) : Q :=
  match e with AG g => gibbs_energy ln C g | AX x => exp_energy ln x | AI _ b l _ => (b + correction ln l)%Q end.

(* 602-622 get_adjusted_entry: the adjustment is appended in the dictionary and the entry
   is read back; an interpolated entry is read back with the same base energy *)
Definition get_adjusted (e : anyentry) (a : adj) : result anyentry :=
  match e with
  | AG g => bind (gibbs_init ln C mass table default_id (ge_comp g) (ge_dhf g) (ge_vol g) (ge_temp g) (Some (ge_adjs g ++ [a])) (Some (ge_id g))) (fun g' => Ok (AG g'))
  | AX x => bind (exp_init C refs deprecated (xe_comp x) (xe_temp x) (xe_adjs x ++ [a])) (fun x' => Ok (AX x'))
  | AI c b l id => Ok (AI c b (l ++ [a]) id)
  end.

Definition stabilization : adj_name := Named 1.
Definition jitter_name : adj_name := Named 2.

(* 222-262 get_stabilized_entry. [data] is entry.data.get("e_above_hull"); [above] is
   self.get_e_above_hull. *)
Definition get_stabilized (above : anyentry -> result Q) (e : anyentry) (data : option Q) (tol : Q) (force : bool) : result anyentry :=
  bind (match data with Some h => Ok h | None => above e end) (fun h =>
  if Qeq_bool h 0 && negb force then Ok e
  else get_adjusted e (AConst stabilization (-(1) * h * natoms C (any_comp e) - tol)%Q)).

(* 285-313 get_entries_with_jitter, up to the set that is made of the result.
   [unc] is correction_uncertainty, None for nan. *)
Definition jitter_one (unc : anyentry -> option Q) (e : anyentry) (z : Q) : result anyentry :=
  get_adjusted e (AConst jitter_name (z * match unc e with Some u => u | None => 0 end)%Q).
Fixpoint get_jitter (unc : anyentry -> option Q) (entries : list anyentry) (noise : list Q) : result (list anyentry) :=
  match entries, noise with
  | [], _ => Ok []
  | e :: l, z :: zs =>
      if is_element C (any_comp e) then get_jitter unc l zs
      else bind (jitter_one unc e z) (fun e' => bind (get_jitter unc l zs) (fun r => Ok (e' :: r)))
  | _ :: _, [] => Err IndexError
  end.

(* 315-343 get_interpolated_entry. [hull c] is the hull energy of a reduced composition
   in the subset of its elements, an error when the elements are not all there. *)
Definition get_interpolated (hull : nat -> result Q) (id_of : nat -> nat) (c : nat) (tol : Q) : result anyentry :=
  bind (hull (red C c)) (fun h =>
  Ok (AI (red C c) (h - tol * natoms C (red C c))%Q [AConst (Named 3) 0%Q] (id_of (red C c)))).

(* enumerators/utils.py:141-167 stabilize_entries, one entry that is in the diagram.
   [has_to_dict] tells if the entry has a method to_dict. The energy is the uncorrected
   one plus the shift, and the corrections are kept; the result is the total energy. *)
Definition stabilize_one (has_to_dict : bool) (above : Q) (e : anyentry) (tol : Q) : result Q :=
  if has_to_dict then Ok (any_energy e + (above * natoms C (any_comp e) - tol))%Q else Err AttributeError.
End Adjust.

(* --- from_pd --- *)
(* A source of experimental data: which formulas it has, which are ignored (the list of
   solids, for NIST), and what the constructor does at the temperature. *)
Record source := { src_has : nat -> bool; src_ignored : nat -> bool; src_build : nat -> result unit }.
Inductive made := FromNist (f : nat) | FromFreed (f : nat) | FromPd (e : nat).

Section FromPd.
Variable formula : nat -> nat.
Variable is_el : nat -> bool.                    (* the composition is an element *)
Variable is_ref : nat -> bool.                   (* entry in pd.el_refs.values() *)
Variables nist freed : source.

(* 624-656 _check_for_experimental: true if an entry is returned *)
Definition check_experimental (s : source) (ignore_solids : bool) (f : nat) : result bool :=
  if src_has s f then
    if ignore_solids && src_ignored s f then Ok false
    else match src_build s f with
         | Ok _ => Ok true
         | Err ValueError => Ok false
         | Err x => Err x
         end
  else Ok false.
Definition wanted (on : bool) (s : source) (ignore_solids : bool) (f : nat) : result bool :=
  if on then check_experimental s ignore_solids f else Ok false.

(* 403-457; the ignore list is only for NIST. The variable new_entry holds the outcome of
   the last source that was looked at. The constructor of the computed entry, with its
   corrections, is [build]. *)
Fixpoint from_pd_loop (use_nist use_freed ignore_solids : bool) (build : nat -> result unit) (entries : list nat) (seen : list nat) : result (list made) :=
  match entries with
  | [] => Ok []
  | e :: rest =>
      let f := formula e in
      if (is_el e && negb (is_ref e)) || memb Nat.eqb f seen
      then from_pd_loop use_nist use_freed ignore_solids build rest seen
      else
        bind (wanted use_nist nist ignore_solids f) (fun n =>
        bind (wanted use_freed freed false f) (fun r =>
        let new := if use_freed then r else n in
        let news := (if n then [FromNist f] else []) ++ (if r then [FromFreed f] else []) in
        if new
        then bind (from_pd_loop use_nist use_freed ignore_solids build rest (seen ++ [f])) (fun l => Ok (news ++ l))
        else bind (build e) (fun _ =>
             bind (from_pd_loop use_nist use_freed ignore_solids build rest seen) (fun l => Ok (news ++ FromPd e :: l)))))
  end.
Definition from_pd (use_nist use_freed ignore_solids : bool) (build : nat -> result unit) (entries : list nat) : result (list made) :=
  from_pd_loop use_nist use_freed ignore_solids build entries [].
End FromPd.

(* 658-685 _get_carbonate_correction: number of carbonate groups. [c] and [o] are the
   numbers of the elements carbon and oxygen; [gga] tells if the run type is GGA or
   GGA+U. *)
Definition carbonate (C : chem) (c_el o_el : nat) (gga : bool) (comp : nat) : option Q :=
  if memb Nat.eqb c_el (elems C comp) && memb Nat.eqb o_el (elems C comp) && gga
  then let nc := amt C comp c_el in let no := amt C comp o_el in
       if Qeq_bool nc 0 || Qeq_bool no 0 then None
       else if isclose (no / nc) 3 then Some nc else None
  else None.
