(* Model of enumerators/basic.py and enumerators/utils.py. Entries and elements are
   numbers; sets are lists whose order is the iteration order. *)
From Verif Require Import Prelude UtilsModel.
Open Scope nat_scope.

(* --- chemical systems --- *)

(* sorted() and set() on element names *)
Fixpoint insert_el (x : nat) (l : list nat) : list nat :=
  match l with [] => [x] | y :: l' => if Nat.leb x y then x :: l else y :: insert_el x l' end.
Definition sorted_set (l : list nat) : list nat := fold_right insert_el [] (nodup Nat.eq_dec l).

Definition list_eqb (a b : list nat) : bool := if list_eq_dec Nat.eq_dec a b then true else false.

Section Chem.
Variable elems : nat -> list nat.          (* entry.composition.elements *)

(* enumerators/utils.py:107-117 get_total_chemsys_str. The text "A-B-C" is the list of
   its element names. *)
Definition total_chemsys (entries open_elems : list nat) : list nat :=
  sorted_set (flat_map elems entries ++ open_elems).

(* enumerators/utils.py:130-138: combo_dict[key].append(combo), or a new key *)
Fixpoint add_combo {V} (key : list nat) (v : V) (d : list (list nat * list V)) : list (list nat * list V) :=
  match d with
  | [] => [(key, [v])]
  | (k, l) :: d' => if list_eqb key k then (k, l ++ [v]) :: d' else (k, l) :: add_combo key v d'
  end.

(* enumerators/utils.py:120-138 group_by_chemsys *)
Definition group_by_chemsys (combos : list (list nat)) (open_elems : list nat) : list (list nat * list (list nat)) :=
  fold_left (fun d c => add_combo (total_chemsys c open_elems) c d) combos [].

(* Python's set.issuperset and set.intersection as used through getattr
   (basic.py:112-113); the intersection counts as true when it is not empty. *)
Inductive set_func := IsSuperset | Intersection.
Definition inb (x : nat) (l : list nat) : bool := memb Nat.eqb x l.
Definition subset (a b : list nat) : bool := forallb (fun x => inb x b) a.
Definition meets (a b : list nat) : bool := existsb (fun x => inb x b) a.
Definition apply_func (f : set_func) (s x : list nat) : bool :=
  match f with IsSuperset => subset x s | Intersection => meets s x end.
(* a - b *)
Definition minus (a b : list nat) : list nat := filter (fun x => negb (inb x b)) a.

(* basic.py:46-119: the options of an enumerator *)
Record options := {
  o_n : nat;
  o_pfunc : set_func;             (* exclusive_precursors *)
  o_tfunc : set_func;             (* exclusive_targets *)
  o_chemsys : option (list nat);  (* filter_by_chemsys *)
  o_chunk : nat;
  o_jobs : nat;
  o_unbalanced : bool;            (* remove_unbalanced *)
  o_changed : bool;               (* remove_changed *)
  o_constraints : nat
}.

Definition is_nil {A} (l : list A) : bool := match l with [] => true | _ => false end.

(* basic.py:368-403 _filter_dict_by_elems: is this chemical system kept? precursor_elems
   holds one list per precursor. An empty filter_by_chemsys cannot occur (it is None
   or a non-empty text). *)
Definition keep_chemsys (o : options) (precursor_elems target_elems : list (list nat)) (open_elems : list nat)
    (els : list nat) : bool :=
  let all_p := concat precursor_elems in
  let all_t := concat target_elems in
  negb (match o_chemsys o with Some f => negb (subset f els) | None => false end)
  && negb (Nat.leb 10 (length els) || Nat.eqb (length els) 1)
  && negb (negb (is_nil precursor_elems) && negb (apply_func (o_pfunc o) (all_p ++ open_elems) els))
  && negb (negb (is_nil target_elems) && negb (apply_func (o_tfunc o) (all_t ++ open_elems) els)).
Definition filter_dict {V} (o : options) (pe te : list (list nat)) (oe : list nat) (d : list (list nat * V)) : list (list nat * V) :=
  filter (fun kv => keep_chemsys o pe te oe (fst kv)) d.

(* basic.py:288-306 _get_combos_dict *)
Definition combos_dict (o : options) (entries precursors targets open_entries : list nat)
  : list (list nat * list (list nat)) :=
  let open_elems := flat_map elems open_entries in
  let combos := limited_powerset (minus entries open_entries) (o_n o) in
  filter_dict o (map elems precursors) (map elems targets) open_elems (group_by_chemsys combos open_elems).

(* basic.py:323-327 _get_rxn_iterable and 284-286 _rxn_iter_length *)
Definition as_pair {A} (c : list A) : option (A * A) := match c with [a; b] => Some (a, b) | _ => None end.
Definition basic_iterable (combos : list (list nat)) (open_combos : list (list nat)) : list (list nat * list nat) :=
  flat_map (fun c => match as_pair c with Some p => [p] | None => [] end) (combinations combos 2).
Definition basic_iter_length (combos : list (list nat)) (open_combos : list (list nat)) : nat :=
  length combos * (length combos - 1) / 2.     (* comb(len(combos), 2) *)
(* basic.py:519-536 BasicOpenEnumerator *)
Definition open_combos (open_entries : list nat) : list (list nat) := limited_powerset open_entries (length open_entries).
Definition union (a b : list nat) : list nat := a ++ minus b a.
Definition open_iterable (combos opens : list (list nat)) : list (list nat * list nat) :=
  list_prod combos (flat_map (fun c => map (union c) (filter (fun oc => negb (meets c oc)) opens)) combos).
Definition open_iter_length (combos opens : list (list nat)) : nat :=
  length combos * fold_right (fun i n => fold_right (fun j m => (if negb (meets i j) then 1 else 0) + m) 0 opens + n) 0 combos.
(* minimize.py:115-125; None is the empty product set *)
Definition minimize_iterable (combos : list (list nat)) (opens : list (list nat)) : list (list nat * list nat) :=
  map (fun c => (c, [])) combos.
End Chem.

(* --- phase diagrams per chemical system (basic.py:168-199, 611-633) --- *)
Section Diagrams.
Context {K D : Type}.
Variable key_eqb : K -> K -> bool.
Variable diagram : K -> D.            (* the entries, pd and grand_pd of one chemical system *)

(* basic.py:611-633 _get_entries_and_pds; the padding of grouper is skipped *)
Definition entries_and_pds (chunk : list (option K)) : list (K * D) :=
  flat_map (fun i => match i with None => [] | Some k => [(k, diagram k)] end) chunk.

(* d[k]; later updates win *)
Fixpoint lookup (k : K) (d : list (K * D)) : option D :=
  match d with [] => None | (k', v) :: d' => match lookup k d' with Some v' => Some v' | None => if key_eqb k k' then Some v else None end end.

(* basic.py:168-193; [wait] is the completion order *)
Definition build_pd_dict (num_cpus : nat) (wait : nat -> list (list (option K)) -> list (list (option K)) * list (list (option K)))
    (keys : list K) : result (list (K * D)) :=
  if Nat.eqb num_cpus 0 then Err ZeroDivisionError
  else bind (grouper (map Some keys) (length keys / num_cpus + 1) None) (fun chunks =>
       bind (to_iterator wait entries_and_pds chunks) (fun ds => Ok (concat ds))).
End Diagrams.

(* --- chunks of work --- *)
Section Chunks.
Context {T R : Type}.                     (* tags (phase diagrams) and reactant/product pairs *)

(* basic.py:195-199. total / chunk_size > max_num_jobs is exact here. *)
Definition choose_chunk_size (chunk_size max_jobs total : nat) : result nat :=
  if Nat.eqb chunk_size 0 then Err ZeroDivisionError
  else if Nat.ltb (max_jobs * chunk_size) total then
    (if Nat.eqb max_jobs 0 then Err ZeroDivisionError else Ok (total / max_jobs + 1))
  else Ok chunk_size.

(* current_chunk[-1][0].append(r) *)
Fixpoint append_last (r : R) (cur : list (list R * T)) : result (list (list R * T)) :=
  match cur with
  | [] => Err IndexError
  | [(l, t)] => Ok [(l ++ [r], t)]
  | x :: cur' => bind (append_last r cur') (fun c => Ok (x :: c))
  end.

(* basic.py:223-231: the inner loop *)
Fixpoint fill_chunks (size : nat) (t : T) (rs : list R) (runs : list (list (list R * T))) (cur : list (list R * T)) (len : nat)
  : result (list (list (list R * T)) * list (list R * T) * nat) :=
  match rs with
  | [] => Ok (runs, cur, len)
  | r :: rs' =>
      if Nat.eqb len size then fill_chunks size t rs' (runs ++ [cur]) [([r], t)] 1
      else bind (append_last r cur) (fun cur' => fill_chunks size t rs' runs cur' (S len))
  end.

(* basic.py:201-240 *)
Definition chunk_length (cur : list (list R * T)) : nat := fold_right (fun c n => length (fst c) + n) 0 cur.
Fixpoint chunk_loop (size : nat) (items : list (T * list R)) (runs : list (list (list R * T))) (cur : list (list R * T))
  : result (list (list (list R * T))) :=
  match items with
  | [] => Ok (match cur with [] => runs | _ => runs ++ [cur] end)
  | (t, rs) :: items' =>
      bind (fill_chunks size t rs runs (cur ++ [([], t)]) (chunk_length cur)) (fun st =>
      let '(runs', cur', len') := st in
      if Nat.eqb len' size then chunk_loop size items' (runs' ++ [cur']) []
      else chunk_loop size items' runs' cur')
  end.

(* basic.py:195-240: all jobs of enumerate(); [total] is the sum of _rxn_iter_length *)
Definition build_jobs (chunk_size max_jobs total : nat) (items : list (T * list R)) : result (list (list (list R * T))) :=
  bind (choose_chunk_size chunk_size max_jobs total) (fun size => chunk_loop size items [] []).
End Chunks.

(* --- _react --- *)

(* A reaction as _react sees it. er_errors None is lowest_num_errors = inf. *)
Record erxn := {
  er_reactants : list nat;      (* reactant_entries *)
  er_products : list nat;
  er_identity : bool;
  er_balanced : bool;
  er_errors : option nat;
  er_constraints : nat
}.

Section React.
Context {T : Type}.
(* The react function of the enumerator; it may raise. *)
Variable react_function : list nat -> list nat -> T -> result (list erxn).

(* basic.py:586-600: the test on a suggested reaction *)
Definition precursor_func (o : options) (precursors open_entries x : list nat) : bool :=
  if is_nil precursors then true else apply_func (o_pfunc o) (precursors ++ open_entries) x.
Definition target_func (o : options) (targets open_entries x : list nat) : bool :=
  if is_nil targets then true else apply_func (o_tfunc o) (targets ++ open_entries) x.
Definition accept (o : options) (precursors targets open_entries : list nat) (r : erxn) : bool :=
  negb (er_identity r
        || (o_unbalanced o && negb (er_balanced r))
        || (o_changed o && negb (match er_errors r with Some 0 => true | _ => false end))
        || Nat.ltb (o_constraints o) (er_constraints r))
  && precursor_func o precursors open_entries (minus (er_reactants r) open_entries)
  && target_func o targets open_entries (minus (er_products r) open_entries).

(* basic.py:570-584: is the pair (r, p) looked at? p empty stands for no products. *)
Definition consider (o : options) (precursors targets open_entries : list nat) (r p : list nat) : bool :=
  let all_phases := r ++ p in
  negb (meets r p
        || (negb (is_nil precursors) && negb (meets precursors all_phases))
        || (negb (is_nil p) && negb (is_nil targets) && negb (meets targets all_phases)))
  && (precursor_func o precursors open_entries r || (negb (is_nil p) && precursor_func o precursors open_entries p))
  && negb (negb (is_nil p) && negb (target_func o targets open_entries r || target_func o targets open_entries p)).

(* basic.py:540-607 _react *)
Definition react_pair (o : options) (precursors targets open_entries : list nat) (t : T) (rp : list nat * list nat)
  : result (list erxn) :=
  if consider o precursors targets open_entries (fst rp) (snd rp)
  then bind (react_function (fst rp) (snd rp) t) (fun rs => Ok (filter (accept o precursors targets open_entries) rs))
  else Ok [].
Definition react_chunk (o : options) (precursors targets open_entries : list nat) (chunk : list (list (list nat * list nat) * T))
  : result (list erxn) :=
  bind (mapM (fun lt => bind (mapM (react_pair o precursors targets open_entries (snd lt)) (fst lt)) (fun ls => Ok (concat ls))) chunk)
       (fun ls => Ok (concat ls)).
End React.

(* basic.py:316-320 _react_function of the basic enumerators; [balance r p] is
   ComputedReaction.balance(r, p) and [backward r p] its reverse(). *)
Definition basic_react {T} (balance backward : list nat -> list nat -> erxn) (r p : list nat) (t : T)
  : result (list erxn) :=
  Ok [balance r p; backward r p].

(* basic.py:121-270 enumerate(), up to the list passed to ReactionSet.from_rxns.
   [iterable] is _get_rxn_iterable, [iter_length] is _rxn_iter_length; [react] the
   react function with the phase diagrams of the chemical system given by [diagram];
   [wait] is the completion order of the jobs. *)
Section Enumerate.
Context {D : Type}.
Variable elems : nat -> list nat.
Variable iterable : list (list nat) -> list (list nat) -> list (list nat * list nat).
Variable iter_length : list (list nat) -> list (list nat) -> nat.
Variable react : list nat -> list nat -> D -> result (list erxn).
Variable diagram : list nat -> D.
Notation job := (list (list (list nat * list nat) * D)).

Definition enumerate_rxns (o : options) (entries precursors targets open_entries : list nat) (opens : list (list nat))
    (wait : nat -> list job -> list job * list job) : result (list erxn) :=
  let d := combos_dict elems o entries precursors targets open_entries in
  let total := fold_right (fun kv n => iter_length (snd kv) opens + n) 0 d in
  bind (build_jobs (o_chunk o) (o_jobs o) total (map (fun kv => (diagram (fst kv), iterable (snd kv) opens)) d)) (fun jobs =>
  bind (to_iterator wait (react_chunk react o precursors targets open_entries) jobs) (fun done =>
  bind (mapM (fun r => r) done) (fun ls => Ok (concat ls)))).
End Enumerate.
